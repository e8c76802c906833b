(** A written Smithy document read back. *)
From Verif Require Import GoStr Outcome Value Schema Misc MiscFacts Model SpecModel ModelFacts SpecPV PVFacts SpecMisc SpecGen OpenApi SpecOpenApi
  OpenApiFacts SpecImport Smithy SmithyFacts SmithyAst SpecSmithy SmithyWrite SmithyShapes SmithyFinal SmithyTypes SmithyRead SmithyHttp.

(** ** Examples *)
Definition request_traits (ex : exampledef) : traits :=
  ("input", TVal (ex_example ex)) :: if ex_comment ex =?s "" then [] else [("documentation", TStr (ex_comment ex))].
Definition is_for (t : string) (ex : exampledef) : bool := ex_target ex =?s t.
Lemma example_map_eq v t : example_map v = Ok t -> t = TVal v.
Proof. destruct v; simpl; try discriminate. intros E. injection E as <-. reflexivity. Qed.
Lemma requests_eq req exs : forall acc l, request_examples req exs acc = Ok l ->
  NoDup (map fst acc ++ map ex_name (filter (is_for req) exs)) ->
  l = acc ++ map (fun ex => (ex_name ex, request_traits ex)) (filter (is_for req) exs).
Proof.
  induction exs as [|ex exs IH]; cbn [request_examples filter]; intros acc l H N; [injection H as <-; rewrite app_nil_r; reflexivity|].
  unfold is_for at 1. unfold is_for at 1 in N. destruct (ex_target ex =?s req); [|apply IH; assumption].
  apply rbind_Ok in H. destruct H as (v & V & H). apply example_map_eq in V. subst v. cbn [map] in N. rewrite put_fresh in H by (apply NoDup_remove_2 in N; rewrite in_app_iff in N; tauto).
  rewrite (IH _ _ H); [rewrite <- app_assoc; reflexivity|]. rewrite map_app, <- app_assoc. exact N.
Qed.
Lemma put_same_keys {A} k (v w : A) l : get k l = Some w -> map fst (put k v l) = map fst l.
Proof.
  induction l as [|[n x] l IH]; simpl; [discriminate|]. destruct (k =?s n) eqn:E; [apply seqb_eq in E; subst n; reflexivity|]. intros H. simpl. rewrite (IH H). reflexivity.
Qed.
Definition answers (res n : string) (exs : list exampledef) : list exampledef := filter (fun ex => is_for res ex && (ex_name ex =?s n)) exs.
Lemma responses_get req res xs exs : req <> res -> forall acc l, response_examples req res xs exs acc = Ok l ->
  map fst l = map fst acc
  /\ (forall n d, get n acc = Some d -> exists d', get n l = Some d' /\ get "input" d' = get "input" d /\ get "documentation" d' = get "documentation" d
       /\ ((exists ex, In ex exs /\ ex_target ex = res /\ ex_name ex = n /\ get "output" d' = Some (TVal (ex_example ex)))
           \/ (answers res n exs = [] /\ get "output" d' = get "output" d))).
Proof.
  intros NE. induction exs as [|ex exs IH]; cbn [response_examples]; intros acc l H.
  - injection H as <-. split; [reflexivity|]. intros n d G. exists d. auto 8.
  - assert (SKIP : (ex_target ex =?s res) && true = false -> response_examples req res xs exs acc = Ok l ->
       map fst l = map fst acc /\ (forall n d, get n acc = Some d -> exists d', get n l = Some d' /\ get "input" d' = get "input" d /\ get "documentation" d' = get "documentation" d
       /\ ((exists ex0, In ex0 (ex :: exs) /\ ex_target ex0 = res /\ ex_name ex0 = n /\ get "output" d' = Some (TVal (ex_example ex0)))
           \/ (answers res n (ex :: exs) = [] /\ get "output" d' = get "output" d)))).
    { intros X Y. rewrite andb_true_r in X. destruct (IH _ _ Y) as [K G]. split; [exact K|]. intros n d E. destruct (G n d E) as (d' & A & B & C & D). exists d'. split; [exact A|]. split; [exact B|]. split; [exact C|].
      destruct D as [(e & D1 & D2)|[D1 D2]]; [left; exists e; simpl; tauto|right]. split; [|exact D2]. unfold answers. cbn [filter]. unfold is_for at 1. rewrite X. exact D1. }
    destruct (ex_target ex =?s req) eqn:T1.
    { apply SKIP; [|exact H]. apply seqb_eq in T1. rewrite andb_true_r. apply seqb_neq. congruence. }
    destruct (get (ex_name ex) acc) as [d0|] eqn:G0.
    2:{ destruct (IH _ _ H) as [K G]. split; [exact K|]. intros n d E. destruct (G n d E) as (d' & A & B & C & D). exists d'. split; [exact A|]. split; [exact B|]. split; [exact C|].
        destruct D as [(e & D1 & D2)|[D1 D2]]; [left; exists e; simpl; tauto|right]. split; [|exact D2]. unfold answers. cbn [filter]. destruct (ex_name ex =?s n) eqn:X; [apply seqb_eq in X; congruence|].
        rewrite andb_false_r. exact D1. }
    destruct (ex_target ex =?s res) eqn:T2.
    + apply rbind_Ok in H. destruct H as (v & V & H). apply example_map_eq in V. subst v. destruct (IH _ _ H) as [K G]. split; [rewrite K; apply (put_same_keys _ _ _ _ G0)|].
      intros n d E. destruct (n =?s ex_name ex) eqn:X.
      * apply seqb_eq in X. subst n. assert (d = d0) by congruence. subst d0. destruct (G (ex_name ex) (put "output" (TVal (ex_example ex)) d)) as (d' & A & B & C & D); [rewrite get_put, seqb_refl; reflexivity|].
        exists d'. rewrite get_put in B, C. simpl in B, C. split; [exact A|]. split; [exact B|]. split; [exact C|]. left. destruct D as [(e & D1 & D2)|[D1 D2]]; [exists e; simpl; tauto|].
        exists ex. simpl. apply seqb_eq in T2. rewrite get_put in D2. auto.
      * destruct (G n d) as (d' & A & B & C & D); [rewrite get_put, X; exact E|]. exists d'. split; [exact A|]. split; [exact B|]. split; [exact C|].
        destruct D as [(e & D1 & D2)|[D1 D2]]; [left; exists e; simpl; tauto|right]. split; [|exact D2]. unfold answers. cbn [filter]. rewrite String.eqb_sym in X. rewrite X, andb_false_r. exact D1.
    + destruct (str_mem (ex_target ex) (map xc_type xs)); [|apply SKIP; [reflexivity|exact H]]. apply rbind_Ok in H. destruct H as (v & V & H). apply example_map_eq in V. subst v.
      destruct (IH _ _ H) as [K G]. split; [rewrite K; apply (put_same_keys _ _ _ _ G0)|]. intros n d E.
      assert (Q : forall q, q <> "error" -> forall d0, get n (put (ex_name ex) (put "error" (TObj [("error", TVal (ex_example ex)); ("shapeId", TStr (ex_target ex))]) d0) acc) = None \/ True) by auto. clear Q.
      destruct (n =?s ex_name ex) eqn:X.
      * apply seqb_eq in X. subst n. assert (d = d0) by congruence. subst d0.
        destruct (G (ex_name ex) (put "error" (TObj [("error", TVal (ex_example ex)); ("shapeId", TStr (ex_target ex))]) d)) as (d' & A & B & C & D); [rewrite get_put, seqb_refl; reflexivity|].
        exists d'. rewrite get_put in B, C. simpl in B, C. split; [exact A|]. split; [exact B|]. split; [exact C|]. destruct D as [(e & D1 & D2)|[D1 D2]]; [left; exists e; simpl; tauto|right].
        rewrite get_put in D2. split; [|exact D2]. unfold answers. cbn [filter]. unfold is_for at 1. rewrite T2. exact D1.
      * destruct (G n d) as (d' & A & B & C & D); [rewrite get_put, X; exact E|]. exists d'. split; [exact A|]. split; [exact B|]. split; [exact C|].
        destruct D as [(e & D1 & D2)|[D1 D2]]; [left; exists e; simpl; tauto|right]. split; [|exact D2]. unfold answers. cbn [filter]. unfold is_for at 1. rewrite T2. exact D1.
Qed.
Lemma no_answers res n exs : answers res n exs = [] -> forall ex, In ex exs -> ex_target ex = res -> ex_name ex <> n.
Proof.
  intros H ex I T E. assert (J : In ex (answers res n exs)) by (apply filter_In; split; [exact I|unfold is_for; rewrite T, E, !seqb_refl; reflexivity]). rewrite H in J. destruct J.
Qed.
Lemma suffix_ne s : s +++ "Request" <> s +++ "Response".
Proof. intros E. apply append_inj_l in E. discriminate. Qed.
Lemma NoDup_map_filter {A} (f : A -> string * string) (g : A -> bool) (t : string) l : NoDup (map f l) -> (forall x, g x = true -> fst (f x) = t) -> NoDup (map (fun x => snd (f x)) (filter g l)).
Proof.
  intros N H. induction l as [|x l IH]; simpl; [constructor|]. simpl in N. inversion N as [|? ? N1 N2]; subst. destruct (g x) eqn:G; [|auto]. simpl. constructor; [|auto].
  intros I. apply N1. apply in_map_iff in I. destruct I as (y & E & I). apply filter_In in I. destruct I as [I Gy]. apply in_map_iff. exists y. split; [|exact I].
  rewrite (surjective_pairing (f y)), (surjective_pairing (f x)), E, (H _ G), (H _ Gy). reflexivity.
Qed.
Lemma nodup_map_inj {A B} (f : A -> B) l : NoDup (map f l) -> forall x y, In x l -> In y l -> f x = f y -> x = y.
Proof.
  induction l as [|z l IH]; simpl; intros N x y I J E; [destruct I|]. inversion N as [|? ? N1 N2]; subst. destruct I as [<-|I], J as [<-|J]; [reflexivity| | |apply IH; assumption].
  - elim N1. rewrite E. apply in_map. exact J.
  - elim N1. rewrite <- E. apply in_map. exact I.
Qed.
(** the examples of one action *)
Section Examples.
Context (L : slib) (exs : list exampledef) (h : httpdef) (n : string).
Hypothesis HI : identifier (h_name h).
Hypothesis HN : NoDup (map (fun ex => (ex_target ex, ex_name ex)) exs).
Definition ex_back (g : exampledef) : Prop :=
  (exists rq, In rq exs /\ request_of h rq /\ g = mkEx (capitalize n +++ "Request") (ex_name rq) (sl_data L (ex_example rq)) (ex_comment rq) [])
  \/ (exists rq ex, In rq exs /\ request_of h rq /\ In ex exs /\ ex_name ex = ex_name rq /\ ex_target ex = cap (h_name h) +++ "Response"
        /\ g = mkEx (capitalize n +++ "Response") (ex_name ex) (sl_data L (ex_example ex)) "" []).
Lemma read_examples_in l g : (forall t, In t l -> exists d, t = TObj d) ->
  In g (read_examples L n l) <-> exists d, In (TObj d) l /\
    ((exists v, get "input" d = Some v /\ g = mkEx (capitalize n +++ "Request") (t_text "title" d) (match v with TVal x => sl_data L x | _ => VNil end) (t_text "documentation" d) [])
     \/ (exists v, get "output" d = Some v /\ g = mkEx (capitalize n +++ "Response") (t_text "title" d) (match v with TVal x => sl_data L x | _ => VNil end) "" [])).
Proof.
  induction l as [|t l IH]; intros H; [simpl; split; [intros []|intros (d & [] & _)]|]. destruct (H t (or_introl eq_refl)) as (d & ->). specialize (IH (fun t I => H t (or_intror I))).
  cbn [read_examples]. rewrite !in_app_iff, IH. split.
  - intros [I|[I|(d' & I & J)]].
    + exists d. split; [left; reflexivity|]. left. destruct (get "input" d) as [v|]; [|destruct I]. destruct I as [<-|[]]. eauto.
    + exists d. split; [left; reflexivity|]. right. destruct (get "output" d) as [v|]; [|destruct I]. destruct I as [<-|[]]. eauto.
    + exists d'. split; [right; exact I|exact J].
  - intros (d' & [E|I] & J); [injection E as <-|right; right; eauto]. destruct J as [(v & G & ->)|(v & G & ->)]; rewrite G; simpl; auto.
Qed.
Lemma action_examples_back l : action_examples exs h = Ok l -> forall g, In g (read_examples L n l) <-> ex_back g.
Proof.
  unfold action_examples. rewrite (cap_eq _ HI). intros H. apply rbind_Ok in H. destruct H as (l1 & R1 & H). apply rbind_Ok in H. destruct H as (l2 & R2 & H). injection H as <-.
  set (req := cap (h_name h) +++ "Request") in *. set (res := cap (h_name h) +++ "Response") in *.
  assert (ND : NoDup (map ex_name (filter (is_for req) exs))).
  { apply (NoDup_map_filter (fun ex => (ex_target ex, ex_name ex)) (is_for req) req); [exact HN|]. intros x E. apply seqb_eq in E. exact E. }
  apply requests_eq in R1; [|exact ND]. simpl in R1. destruct (responses_get _ _ _ _ (suffix_ne _) _ _ R2) as [K G].
  assert (ND2 : NoDup (map fst l2)) by (rewrite K, R1, map_map; exact ND). assert (ND1 : NoDup (map fst l1)) by (rewrite R1, map_map; exact ND).
  assert (G1 : forall rq, In rq exs -> request_of h rq -> get (ex_name rq) l1 = Some (request_traits rq)).
  { intros rq I Q. apply get_In; [exact ND1|]. rewrite R1. apply (in_map (fun ex => (ex_name ex, request_traits ex))). apply filter_In. split; [exact I|]. unfold is_for. apply seqb_eq. exact Q. }
  intros g. rewrite read_examples_in.
  2:{ intros t I. apply in_map_iff in I. destruct I as (x & <- & _). eauto. }
  assert (TT : forall k d, t_text "title" (put "title" (TStr k) d) = k) by (intros k d; unfold t_text; rewrite get_put; reflexivity).
  assert (TO : forall q k d, q <> "title" -> get q (put "title" (TStr k) d) = get q d) by (intros q k d Q; rewrite get_put; apply seqb_neq in Q; rewrite Q; reflexivity).
  split.
  - intros (d & I & J). apply in_map_iff in I. destruct I as ([k d'] & E & I). cbn [fst snd] in E. injection E as <-.
    assert (KI : In k (map fst l1)) by (rewrite <- K; apply (in_map fst) in I; exact I). rewrite R1, map_map in KI. apply in_map_iff in KI. destruct KI as (rq & <- & KI).
    apply filter_In in KI. destruct KI as [KI KQ]. apply seqb_eq in KQ. destruct (G _ _ (G1 rq KI KQ)) as (d2 & A & B & C & D). cbn [fst] in I, J. apply (get_In _ _ _ ND2) in I. assert (d2 = d') by congruence. subst d2.
    rewrite TT in J. rewrite !TO in J by discriminate. destruct J as [(v & V & ->)|(v & V & ->)].
    + left. exists rq. split; [exact KI|]. split; [exact KQ|]. rewrite B in V. simpl in V. injection V as <-. f_equal. unfold t_text. rewrite TO, C by discriminate. unfold request_traits.
      cbn [get String.eqb Ascii.eqb Bool.eqb]. destruct (ex_comment rq =?s "") eqn:X; [apply seqb_eq in X; rewrite X|]; reflexivity.
    + right. destruct D as [(ex & D1 & D2 & D3 & D4)|[D1 D2]].
      * exists rq, ex. rewrite D4 in V. injection V as <-. rewrite D3. auto 8.
      * rewrite D2 in V. unfold request_traits in V. cbn [get String.eqb Ascii.eqb Bool.eqb] in V. destruct (ex_comment rq =?s ""); discriminate.
  - intros [(rq & I & Q & ->)|(rq & ex & I & Q & Ie & En & Et & ->)]; destruct (G _ _ (G1 rq I Q)) as (d & A & B & C & D); exists (put "title" (TStr (ex_name rq)) d);
      (split; [apply in_map_iff; exists (ex_name rq, d); split; [reflexivity|apply (get_In _ _ _ ND2); exact A]|]); rewrite TT, !TO by discriminate.
    + left. exists (TVal (ex_example rq)). split; [rewrite B; reflexivity|]. f_equal. unfold t_text. rewrite TO, C by discriminate. unfold request_traits.
      cbn [get String.eqb Ascii.eqb Bool.eqb]. destruct (ex_comment rq =?s "") eqn:X; [apply seqb_eq in X; rewrite X|]; reflexivity.
    + right. destruct D as [(ex' & D1 & D2 & D3 & D4)|[D1 D2]].
      * exists (TVal (ex_example ex')). split; [exact D4|]. assert (EE : ex = ex').
        { apply (nodup_map_inj (fun ex => (ex_target ex, ex_name ex)) exs HN); [exact Ie|exact D1|]. congruence. }
        subst ex'. rewrite En. reflexivity.
      * elim (no_answers _ _ _ D1 ex Ie Et En).
Qed.
End Examples.

(** ** The whole document *)
Section Round.
Context (L : slib) (ns insuf outsuf : string).
Hypothesis HU : user_namespace ns.
Hypothesis HS : suffixes insuf outsuf.
Notation id_of := (id_of ns).
Context (sch : schema) (a : ast).
Hypothesis CF : collision_free sch.
Hypothesis HP : plain_names sch.
Hypothesis NA : names_apart insuf outsuf sch.
Hypothesis ED : errors_declared sch.
Hypothesis AO : annos_once sch.
Hypothesis MO : members_once sch.
Hypothesis PO : params_once sch.
Hypothesis RP : refs_plain sch.
Hypothesis EX : smithy_export ns insuf outsuf sch = Ok a.
Notation shapes := (as_shapes a).
Notation xs := (flat_map h_exceptions (sc_http sch)).
Definition io_all : list string :=
  flat_map (fun h => io_names insuf outsuf (h_name h) (h_inputs h) (outputs_of h)) (sc_http sch)
  ++ flat_map (fun o => io_names insuf outsuf (op_name o) (op_inputs o) (op_outputs o)) (sc_operations sch).
Lemma type_kind td : In td (sc_types sch) -> sh_type (fshape ns td xs) <> "operation" /\ sh_type (fshape ns td xs) <> "service".
Proof.
  intros I. destruct (exportable ns insuf outsuf sch a HP AO EX) as (K & _). specialize (K td I). apply (kind_shape ns _ (td_annos td)) in K. destruct K as (s0 & K).
  destruct (final_rest ns td s0 xs K) as (-> & _). unfold shape_of_type in K. destruct (str_mem (ts_type (td_spec td)) number_types) eqn:N.
  { apply str_mem_In in N. injection K as <-. simpl. unfold number_types in N. simpl in N. repeat (destruct N as [<-|N]; [split; discriminate|]). destruct N. }
  repeat match type of K with context [if ?b then _ else _] => destruct b; [injection K as <-; simpl; try destruct (_ =?s _); split; discriminate|] end. discriminate.
Qed.
Lemma entry_cases k s : In (k, s) (entries ns insuf outsuf sch) ->
  (exists td, In td (sc_types sch) /\ k = id_of (td_name td) /\ s = fshape ns td xs)
  \/ (exists n, In n io_all /\ k = id_of n /\ sh_type s = "structure")
  \/ (exists h, In h (sc_http sch) /\ k = id_of (cap (h_name h)) /\ s = oshape ns insuf outsuf sch h)
  \/ (exists o, In o (sc_operations sch) /\ k = id_of (cap (op_name o)) /\ s = oop_shape ns insuf outsuf o)
  \/ (exists n, In n (service_names sch) /\ k = id_of n /\ s = service_shape ns sch).
Proof.
  unfold entries, service_entries. rewrite !in_app_iff. intros [I|[I|[I|I]]].
  - left. apply in_map_iff in I. destruct I as (td & E & I). unfold tentry in E. injection E as <- <-. eauto.
  - apply in_flat_map in I. destruct I as (h & I & J). unfold hentries in J. apply in_app_iff in J. destruct J as [J|[J|[]]].
    + right. left. assert (KK : In k (map id_of (io_names insuf outsuf (h_name h) (h_inputs h) (outputs_of h)))) by (apply (in_map fst) in J; rewrite io_keys in J; exact J).
      apply in_map_iff in KK. destruct KK as (n & <- & KK). exists n. split; [unfold io_all; apply in_app_iff; left; apply in_flat_map; eauto|]. split; [reflexivity|].
      unfold io_entries in J. apply in_app_iff in J. destruct J as [J|J]; [destruct (h_inputs h)|destruct (outputs_of h)]; simpl in J; try tauto; destruct J as [J|[]]; injection J as _ <-; reflexivity.
    + injection J as <- <-. right. right. left. exists h. auto.
  - apply in_flat_map in I. destruct I as (o & I & J). unfold oentries in J. apply in_app_iff in J. destruct J as [J|[J|[]]].
    + right. left. assert (KK : In k (map id_of (io_names insuf outsuf (op_name o) (op_inputs o) (op_outputs o)))) by (apply (in_map fst) in J; rewrite io_keys in J; exact J).
      apply in_map_iff in KK. destruct KK as (n & <- & KK). exists n. split; [unfold io_all; apply in_app_iff; right; apply in_flat_map; eauto|]. split; [reflexivity|].
      unfold io_entries in J. apply in_app_iff in J. destruct J as [J|J]; [destruct (op_inputs o)|destruct (op_outputs o)]; simpl in J; try tauto; destruct J as [J|[]]; injection J as _ <-; reflexivity.
    + injection J as <- <-. right. right. right. left. exists o. auto.
  - apply in_map_iff in I. destruct I as (n & E & I). injection E as <- <-. right. right. right. right. eauto.
Qed.
Lemma io_entry n : In n io_all -> exists s, In (id_of n, s) (entries ns insuf outsuf sch) /\ sh_type s = "structure".
Proof.
  intros I. unfold io_all in I. apply in_app_iff in I. destruct I as [I|I]; apply in_flat_map in I; destruct I as (h & I & J).
  - assert (K : In (id_of n) (map fst (io_entries ns insuf outsuf (h_name h) (h_inputs h) (outputs_of h) (in_shape ns h) (out_shape ns h)))) by (rewrite io_keys; apply in_map; exact J).
    apply in_map_iff in K. destruct K as ([k s] & E & K). cbn [fst] in E. subst k. exists s. split; [apply (entry_http ns insuf outsuf sch h); [exact I|]; unfold hentries; apply in_app_iff; auto|].
    unfold io_entries in K. apply in_app_iff in K. destruct K as [K|K]; [destruct (h_inputs h)|destruct (outputs_of h)]; simpl in K; try tauto; destruct K as [K|[]]; injection K as _ <-; reflexivity.
  - assert (K : In (id_of n) (map fst (io_entries ns insuf outsuf (op_name h) (op_inputs h) (op_outputs h) (oin_shape ns h) (oout_shape ns h)))) by (rewrite io_keys; apply in_map; exact J).
    apply in_map_iff in K. destruct K as ([k s] & E & K). cbn [fst] in E. subst k. exists s. split; [apply (entry_op ns insuf outsuf sch h); [exact I|]; unfold oentries; apply in_app_iff; auto|].
    unfold io_entries in K. apply in_app_iff in K. destruct K as [K|K]; [destruct (op_inputs h)|destruct (op_outputs h)]; simpl in K; try tauto; destruct K as [K|[]]; injection K as _ <-; reflexivity.
Qed.
Lemma entry_fun k s s' : In (k, s) (entries ns insuf outsuf sch) -> In (k, s') (entries ns insuf outsuf sch) -> s = s'.
Proof.
  pose proof (entries_nodup ns insuf outsuf sch NA) as ND. intros A B. apply (get_In _ _ _ ND) in A, B. congruence.
Qed.
Lemma not_io k s : In (k, s) (entries ns insuf outsuf sch) -> sh_type s <> "structure" -> ~ In k (map id_of io_all).
Proof.
  intros I T J. apply in_map_iff in J. destruct J as (n & <- & J). destruct (io_entry n J) as (s' & I' & T'). apply T. rewrite (entry_fun _ _ _ I I'). exact T'.
Qed.
Lemma type_not_io td : In td (sc_types sch) -> ~ In (id_of (td_name td)) (map id_of io_all).
Proof.
  intros I J. apply in_map_iff in J. destruct J as (n & E & J). apply id_inj in E. subst n. pose proof NA as N. unfold names_apart, shape_names in N.
  apply (NoDup_app_not _ _ (td_name td) N (in_map td_name _ _ I)). rewrite !in_app_iff. unfold io_all in J. apply in_app_iff in J.
  destruct J as [J|J]; apply in_flat_map in J; destruct J as (h & J & K); [left|right; left]; apply in_flat_map; exists h; (split; [exact J|]); [unfold action_names|unfold operation_names]; apply in_app_iff; auto.
Qed.
Lemma io_params_in k : In k (io_params shapes) <-> In k (map id_of io_all).
Proof.
  rewrite (shapes_eq ns insuf outsuf sch a HP NA ED EX). unfold io_params. rewrite in_flat_map.
  assert (IN : forall {A B} name (ins : list A) (outs : list B), In k ((match (match ins with [] => None | _ => Some (id_of (cap name +++ insuf)) end) with Some t => [t] | None => [] end)
     ++ match (match outs with [] => None | _ => Some (id_of (cap name +++ outsuf)) end) with Some t => [t] | None => [] end) <-> In k (map id_of (io_names insuf outsuf name ins outs))).
  { intros A B name ins outs. unfold io_names. destruct ins, outs; reflexivity. }
  split.
  - intros ([k' s] & I & J). cbn [snd] in J. destruct (sh_type s =?s "operation") eqn:T; [|destruct J]. apply seqb_eq in T.
    destruct (entry_cases _ _ I) as [(td & A & _ & ->)|[(n & _ & _ & T2)|[(h & A & _ & ->)|[(o & A & _ & ->)|(n & _ & _ & ->)]]]].
    + elim (proj1 (type_kind td A) T).
    + congruence.
    + destruct (oshape_rest ns insuf outsuf sch a HP AO EX h A) as (_ & E1 & E2 & _). rewrite E1, E2 in J. simpl sh_input in J. simpl sh_output in J. apply IN in J. unfold io_all. rewrite map_app, in_app_iff. left.
      apply in_map_iff in J. destruct J as (n & <- & J). apply in_map. apply in_flat_map. eauto.
    + simpl sh_input in J. simpl sh_output in J. apply IN in J. unfold io_all. rewrite map_app, in_app_iff. right. apply in_map_iff in J. destruct J as (n & <- & J). apply in_map. apply in_flat_map. eauto.
    + discriminate.
  - intros J. apply in_map_iff in J. destruct J as (n & <- & J). unfold io_all in J. apply in_app_iff in J. destruct J as [J|J]; apply in_flat_map in J; destruct J as (h & A & J).
    + exists (id_of (cap (h_name h)), oshape ns insuf outsuf sch h). split; [apply (oshape_entry ns insuf outsuf sch h A)|]. cbn [snd].
      destruct (oshape_rest ns insuf outsuf sch a HP AO EX h A) as (T & E1 & E2 & _). rewrite T, E1, E2. cbn [String.eqb Ascii.eqb Bool.eqb]. simpl sh_input. simpl sh_output.
      pose proof (in_map id_of _ _ J) as J2. clear IN. unfold io_names in J2. destruct (h_inputs h), (outputs_of h); exact J2.
    + exists (id_of (cap (op_name h)), oop_shape ns insuf outsuf h). split; [apply (entry_op ns insuf outsuf sch h _ A); unfold oentries; apply in_app_iff; simpl; auto|]. cbn [snd]. simpl sh_type. cbn [String.eqb Ascii.eqb Bool.eqb]. simpl sh_input. simpl sh_output.
      pose proof (in_map id_of _ _ J) as J2. clear IN. unfold io_names in J2. destruct (op_inputs h), (op_outputs h); exact J2.
Qed.
Lemma io_skip k : (str_mem k (io_params shapes) = true <-> In k (map id_of io_all)).
Proof. rewrite str_mem_In. apply io_params_in. Qed.
Lemma io_keep k : ~ In k (map id_of io_all) -> str_mem k (io_params shapes) = false.
Proof. intros H. destruct (str_mem k (io_params shapes)) eqn:E; [|reflexivity]. apply io_skip in E. contradiction. Qed.

Definition padd (p q : part) : part := mkPart (p_types p ++ p_types q) (p_https p ++ p_https q) (p_ops p ++ p_ops q) (p_exs p ++ p_exs q).
Lemma read_shapes_app sv l l' p q : read_shapes L shapes sv l = Ok p -> read_shapes L shapes sv l' = Ok q -> read_shapes L shapes sv (l ++ l') = Ok (padd p q).
Proof.
  revert p. induction l as [|[n s] l IH]; intros p H K; cbn [read_shapes app] in *.
  - injection H as <-. rewrite K. destruct q. reflexivity.
  - apply rbind_Ok in H. destruct H as (p1 & E & H). rewrite E. cbn [rbind] in *. apply rbind_Ok in H. destruct H as (p2 & E2 & H). injection H as <-.
    rewrite (IH p2 E2 K). cbn [rbind]. unfold padd. simpl. rewrite <- !app_assoc. reflexivity.
Qed.
Lemma read_one sv n s p : sh_type s <> "service" -> ~ In n (map id_of io_all) -> read_shape L shapes n s = Ok p -> read_shapes L shapes sv [(n, s)] = Ok p.
Proof.
  intros T N E. cbn [read_shapes]. apply seqb_neq in T. rewrite T, (io_keep n N). cbn [negb orb andb]. rewrite E. cbn [rbind]. rewrite !app_nil_r. destruct p. reflexivity.
Qed.
Lemma read_types sv tds : (forall td, In td tds -> In td (sc_types sch)) -> exists tds', read_shapes L shapes sv (map (tentry ns xs) tds) = Ok (mkPart tds' [] [] []) /\ Forall2 (type_back L sch) tds tds'.
Proof.
  induction tds as [|td tds IH]; intros S; [exists []; split; [reflexivity|constructor]|]. destruct (IH (fun x I => S x (or_intror I))) as (tds' & E & F).
  assert (I : In td (sc_types sch)) by (apply S; left; reflexivity). destruct (type_shape_ok ns insuf outsuf sch a HP AO EX td I) as (s & ES).
  destruct (type_read L ns shapes HU sch td s I ES) as (td' & R & B); [|exact AO|exact MO|exact RP|].
  { intros X. destruct CF as (_ & CB & _). apply (CB td I). rewrite X. vm_compute. tauto. }
  exists (td' :: tds'). split; [|constructor; assumption]. change (map (tentry ns xs) (td :: tds)) with ([tentry ns xs td] ++ map (tentry ns xs) tds).
  rewrite (read_shapes_app sv _ _ (mkPart [td'] [] [] []) (mkPart tds' [] [] [])); [reflexivity| |exact E].
  unfold tentry. apply read_one; [apply (type_kind td I)|apply type_not_io; exact I|]. unfold tshape. rewrite ES. exact R.
Qed.
Lemma read_io sv {A B} name (ins : list A) (outs : list B) si so : sh_type si = "structure" -> sh_type so = "structure" -> (forall n, In n (io_names insuf outsuf name ins outs) -> In n io_all) ->
  read_shapes L shapes sv (io_entries ns insuf outsuf name ins outs si so) = Ok (mkPart [] [] [] []).
Proof.
  intros T1 T2 H. assert (K : forall n, In n (io_names insuf outsuf name ins outs) -> str_mem (id_of n) (io_params shapes) = true).
  { intros n I. apply io_skip. apply in_map. apply H. exact I. }
  unfold io_entries, io_names in *. destruct ins, outs; cbn [read_shapes app] in *; rewrite ?K by (simpl; auto); rewrite ?andb_false_r; reflexivity.
Qed.
Lemma read_actions sv hs : (forall h, In h hs -> In h (sc_http sch)) ->
  exists gs, read_shapes L shapes sv (flat_map (hentries ns insuf outsuf (with_examples (sc_examples sch)) (sc_base sch)) hs)
     = Ok (mkPart [] gs [] (flat_map (fun h => examples_of L (id_of (cap (h_name h))) (oshape ns insuf outsuf sch h)) hs)) /\ Forall2 (http_back L insuf outsuf sch) hs gs.
Proof.
  induction hs as [|h hs IH]; intros S; [exists []; split; [reflexivity|constructor]|]. destruct (IH (fun x I => S x (or_intror I))) as (gs & E & F).
  assert (I : In h (sc_http sch)) by (apply S; left; reflexivity).
  destruct (http_read L ns insuf outsuf HU HS sch a HP NA ED AO PO RP EX h I) as (g & R & B). exists (g :: gs). split; [|constructor; assumption]. cbn [flat_map].
  assert (E0 : read_shapes L shapes sv (hentries ns insuf outsuf (with_examples (sc_examples sch)) (sc_base sch) h) = Ok (mkPart [] [g] [] (examples_of L (id_of (cap (h_name h))) (oshape ns insuf outsuf sch h)))); [|rewrite (read_shapes_app sv _ _ _ _ E0 E); reflexivity].
  unfold hentries. rewrite (read_shapes_app sv _ _ (mkPart [] [] [] []) (mkPart [] [g] [] (examples_of L (id_of (cap (h_name h))) (oshape ns insuf outsuf sch h)))); [reflexivity| |].
  - apply read_io; [reflexivity|reflexivity|]. intros n J. unfold io_all. apply in_app_iff. left. apply in_flat_map. eauto.
  - destruct (oshape_rest ns insuf outsuf sch a HP AO EX h I) as (T & _). apply read_one; [fold (oshape ns insuf outsuf sch h); rewrite T; discriminate| |exact R].
    apply (not_io _ (oshape ns insuf outsuf sch h)); [apply (oshape_entry ns insuf outsuf sch h I)|rewrite T; discriminate].
Qed.
Lemma read_operations sv os : (forall o, In o os -> In o (sc_operations sch)) ->
  exists ps, read_shapes L shapes sv (flat_map (oentries ns insuf outsuf) os) = Ok (mkPart [] [] ps []) /\ Forall2 op_back os ps.
Proof.
  induction os as [|o os IH]; intros S; [exists []; split; [reflexivity|constructor]|]. destruct (IH (fun x I => S x (or_intror I))) as (ps & E & F).
  assert (I : In o (sc_operations sch)) by (apply S; left; reflexivity).
  destruct (operation_read L ns insuf outsuf HU sch a HP NA ED PO RP EX o I) as (p & R & B). exists (p :: ps). split; [|constructor; assumption]. cbn [flat_map].
  rewrite (read_shapes_app sv _ _ (mkPart [] [] [p] []) (mkPart [] [] ps [])); [reflexivity| |exact E].
  unfold oentries. rewrite (read_shapes_app sv _ _ (mkPart [] [] [] []) (mkPart [] [] [p] [])); [reflexivity| |].
  - apply read_io; [reflexivity|reflexivity|]. intros n J. unfold io_all. apply in_app_iff. right. apply in_flat_map. eauto.
  - apply read_one; [discriminate| |exact R].
    apply (not_io _ (oop_shape ns insuf outsuf o)); [apply (entry_op ns insuf outsuf sch o _ I); unfold oentries; apply in_app_iff; simpl; auto|discriminate].
Qed.
Lemma read_service sv l : read_shapes L shapes sv (map (fun n => (id_of n, service_shape ns sch)) l) = Ok (mkPart [] [] [] []).
Proof. induction l as [|n l IH]; [reflexivity|]. cbn [map read_shapes]. rewrite IH. destruct ((_ || _) && _); reflexivity. Qed.
Lemma find_none want l nm vs : (forall n s, In (n, s) l -> sh_type s <> "service") -> forall l', find_service want (l ++ l') nm vs = find_service want l' nm vs.
Proof.
  induction l as [|[n s] l IH]; intros H l'; [reflexivity|]. cbn [app find_service]. assert (T : sh_type s <> "service") by (apply (H n s); left; reflexivity). apply seqb_neq in T. rewrite T.
  apply IH. intros x y I. apply (H x y). right. exact I.
Qed.
Lemma service_found want : want = "" \/ want = id_of (cap (sc_name sch)) ->
  find_service want shapes "" "" = Ok (match service_names sch with [] => ("", "") | _ => (id_of (cap (sc_name sch)), or_else "0.0" (sc_version sch)) end).
Proof.
  intros W. rewrite (shapes_eq ns insuf outsuf sch a HP NA ED EX). unfold entries. rewrite !app_assoc. rewrite find_none.
  - unfold service_entries, service_names. destruct (sc_http sch) as [|h hs], (sc_operations sch) as [|o os]; [reflexivity| | |]; cbn [map find_service]; simpl sh_type; cbn [String.eqb Ascii.eqb Bool.eqb];
      (destruct W as [-> | ->]; [reflexivity|]; rewrite seqb_refl; destruct (id_of (cap (sc_name sch)) =?s ""); reflexivity).
  - intros n s I T. rewrite <- app_assoc in I. assert (J : In (n, s) (entries ns insuf outsuf sch)) by (unfold entries; rewrite !in_app_iff in *; tauto).
    destruct (entry_cases _ _ J) as [(td & A & _ & ->)|[(x & _ & _ & T2)|[(h & A & _ & ->)|[(o & A & _ & ->)|(x & X & -> & ->)]]]].
    + apply (type_kind td A). exact T.
    + congruence.
    + destruct (oshape_rest ns insuf outsuf sch a HP AO EX h A) as (T2 & _). congruence.
    + discriminate.
    + pose proof (entries_nodup ns insuf outsuf sch NA) as ND. unfold entries in ND. rewrite !app_assoc, map_app in ND. rewrite <- app_assoc in ND. apply (NoDup_app_not _ _ (id_of x) ND).
      * apply (in_map fst) in I. exact I.
      * unfold service_entries. rewrite map_map. cbn [fst]. apply in_map. exact X.
Qed.
Lemma uncap_nodup : NoDup (map (fun h => uncap (h_name h)) (sc_http sch)).
Proof.
  pose proof NA as N. unfold names_apart, shape_names in N. apply NoDup_app_r in N. apply NoDup_app_l in N.
  assert (G : forall l, NoDup (flat_map (action_names insuf outsuf) l) -> NoDup (map (fun h => uncap (h_name h)) l)).
  { induction l as [|h l IH]; cbn [flat_map map]; intros H; [constructor|]. constructor; [|apply IH; apply NoDup_app_r in H; exact H].
    intros I. apply in_map_iff in I. destruct I as (h' & E & I). apply (NoDup_app_not _ _ (cap (h_name h)) H); [unfold action_names; apply in_app_iff; simpl; auto|].
    apply in_flat_map. exists h'. split; [exact I|]. unfold action_names. apply in_app_iff. right. left. rewrite <- (cap_of_uncap (h_name h')), E. apply cap_of_uncap. }
  apply G. exact N.
Qed.
Theorem smithy_round name nspace service base : service = "" \/ service = id_of (cap (sc_name sch)) ->
  exists m', smithy_import L name nspace service base a = Ok m'
  /\ Forall2 (type_back L sch) (sc_types sch) (sc_types (m_schema m'))
  /\ Forall2 (http_back L insuf outsuf sch) (sc_http sch) (sc_http (m_schema m'))
  /\ Forall2 op_back (sc_operations sch) (sc_operations (m_schema m'))
  /\ smithy_head_back name nspace base sch (m_schema m')
  /\ sc_examples (m_schema m') = flat_map (fun h => examples_of L (id_of (cap (h_name h))) (oshape ns insuf outsuf sch h)) (sc_http sch).
Proof.
  intros W. unfold smithy_import, smithy_schema. rewrite (service_found service W). cbn [rbind].
  set (sv := match service_names sch with [] => ("", "") | _ => _ end).
  destruct (read_types (fst sv) (sc_types sch) (fun x I => I)) as (tds & R1 & F1). destruct (read_actions (fst sv) (sc_http sch) (fun x I => I)) as (gs & R2 & F2).
  destruct (read_operations (fst sv) (sc_operations sch) (fun x I => I)) as (ps & R3 & F3).
  assert (RR : read_shapes L shapes (fst sv) shapes = Ok (mkPart tds gs ps (flat_map (fun h => examples_of L (id_of (cap (h_name h))) (oshape ns insuf outsuf sch h)) (sc_http sch)))).
  { rewrite (shapes_eq ns insuf outsuf sch a HP NA ED EX) at 2. unfold entries.
    erewrite read_shapes_app; [|exact R1|eapply read_shapes_app; [exact R2|eapply read_shapes_app; [exact R3|apply read_service]]]. unfold padd. simpl. rewrite !app_nil_r. reflexivity. }
  destruct sv as [sn svr] eqn:ESV. cbn [fst] in RR. rewrite RR. cbn [rbind p_types p_https p_ops p_exs].
  match goal with |- context [new_model ?s] => destruct (proj1 (new_model_iff s)) as (m' & M) end.
  { destruct CF as (C1 & C2 & C3). assert (NT : map td_name tds = map td_name (sc_types sch)) by (clear - F1; induction F1 as [|x y l l' (B & _) F IH]; simpl; [reflexivity|rewrite IH, B; reflexivity]).
    assert (NH : map h_name gs = map (fun h => uncap (h_name h)) (sc_http sch)) by (clear - F2; induction F2 as [|x y l l' (B & _) F IH]; simpl; [reflexivity|rewrite IH, B; reflexivity]).
    split; [cbn [sc_types]; rewrite NT; exact C1|]. split; [|cbn [sc_http]; rewrite NH; apply uncap_nodup]. cbn [sc_types]. intros td I. apply (in_map td_name) in I. rewrite NT in I. apply in_map_iff in I.
    destruct I as (td' & <- & I). apply C2. exact I. }
  rewrite M. exists m'. split; [reflexivity|]. rewrite (proj1 (new_model_inv _ _ M)). cbn [sc_types sc_http sc_operations sc_examples]. split; [exact F1|]. split; [exact F2|]. split; [exact F3|]. split; [|reflexivity].
  unfold smithy_head_back. cbn [sc_name sc_namespace sc_version sc_comment sc_base sc_annos].
  assert (SN : strip_namespace sn = match sc_http sch, sc_operations sch with [], [] => "" | _, _ => cap (sc_name sch) end /\ svr = version_back sch).
  { unfold sv, service_names in ESV. unfold version_back. destruct (sc_http sch), (sc_operations sch); injection ESV as <- <-; (split; [|reflexivity]); try reflexivity; apply (strip_id ns HU). }
  destruct SN as [-> ->]. split; [unfold or_else; destruct (name =?s "") eqn:X; [apply seqb_eq in X; subst name; reflexivity|destruct name; [discriminate|reflexivity]]|]. repeat (split; [reflexivity|]).
  rewrite (proj2 (export_entries ns insuf outsuf sch a HP NA ED EX)). destruct (sc_base sch); reflexivity.
Qed.
Lemma capitalize_id n : plain_start ns -> capitalize (id_of n) = cap (id_of n).
Proof.
  intros H. assert (X : exists c r, id_of n = String c r /\ ascii7 c).
  { unfold SmithyAst.id_of. destruct ns as [|c r] eqn:E; [exists "#"%char, n; split; [reflexivity|unfold ascii7; vm_compute; repeat constructor]|]. exists c, (r +++ "#" +++ n). split; [reflexivity|]. exact (H c r eq_refl). }
  destruct X as (c & r & E & H7). rewrite E. destruct (capitalize_spec c r H7) as (d & -> & P1 & P2). unfold cap.
  destruct ((97 <=? nat_of_ascii c) && (nat_of_ascii c <=? 122)) eqn:B.
  - apply andb_true_iff in B. destruct B as [B1 B2]. apply Nat.leb_le in B1, B2. assert (LL : lower_letter c) by (unfold lower_letter; lia). specialize (P1 LL).
    destruct P1 as [P1 P3]. f_equal. rewrite <- (ascii_nat_embedding d). f_equal. lia.
  - rewrite P2; [reflexivity|]. unfold lower_letter. intros Q. apply andb_false_iff in B. destruct B as [B|B]; apply Nat.leb_gt in B; lia.
Qed.
Lemma examples_read : plain_start ns -> NoDup (map (fun ex => (ex_target ex, ex_name ex)) (sc_examples sch)) -> forall g,
  In g (flat_map (fun h => examples_of L (id_of (cap (h_name h))) (oshape ns insuf outsuf sch h)) (sc_http sch)) <-> example_back L ns sch g.
Proof.
  intros PS ND g. rewrite in_flat_map.
  assert (ONE : forall h, In h (sc_http sch) -> In g (examples_of L (id_of (cap (h_name h))) (oshape ns insuf outsuf sch h)) <-> ex_back L (sc_examples sch) h (id_of (cap (h_name h))) g).
  { intros h I. assert (HI : identifier (h_name h)) by (apply HP; exact I).
    assert (XE : exists l, action_examples (sc_examples sch) h = Ok l).
    { destruct (sc_examples sch) as [|e es] eqn:EE; [exists []; reflexivity|]. pose proof EX as E. unfold smithy_export in E. apply rbind_Ok in E. destruct E as (a1 & _ & E). apply rbind_Ok in E. destruct E as (a2 & _ & E).
      apply rbind_Ok in E. destruct E as (a3 & E & _). rewrite EE in E. clear - E I. revert E. generalize (write_service ns sch (fold_left (fun acc o => write_operation ns insuf outsuf o acc) (sc_operations sch) a2)).
      induction (sc_http sch) as [|x l IH]; [destruct I|]. intros acc E. cbn [write_examples] in E. apply rbind_Ok in E. destruct E as (y & Y & E). destruct I as [->|I]; [eauto|]. eapply IH; eassumption. }
    destruct XE as (l & XE). rewrite <- (action_examples_back L _ h (id_of (cap (h_name h))) HI ND l XE g).
    unfold examples_of, oshape, with_examples, titles. rewrite XE. destruct l as [|t l].
    - unfold t_arr. simpl sh_traits. destruct (action_traits_spec _ _ _ (traits_ok ns insuf outsuf sch a HP AO EX h I)) as (_ & _ & _ & _ & _ & _ & ->). reflexivity.
    - unfold t_arr, add_trait. simpl sh_traits. rewrite get_put, seqb_refl. reflexivity. }
  split.
  - intros (h & I & J). apply (ONE h I) in J. destruct J as [(rq & A & B & ->)|(rq & ex & A & B & C & D & E & ->)]; rewrite capitalize_id by exact PS; [apply eb_request; assumption|apply (eb_answer L ns sch h rq ex); assumption].
  - intros B. destruct B as [h rq A B C|h rq ex A B C D E F]; exists h; (split; [exact A|]); apply (ONE h A); [left; exists rq|right; exists rq, ex]; rewrite capitalize_id by exact PS; auto 8.
Qed.
End Round.
