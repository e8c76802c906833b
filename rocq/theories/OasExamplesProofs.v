From Coq Require Import Permutation.
From Verif Require Import GoStr Outcome Value Schema Misc Model ParserValidate OpenApi OasExamples
  SpecModel SpecPV SpecGen SpecTrace SpecOpenApi SpecOasExamples ModelFacts ValidateFacts PVFacts GenFacts TraceFacts OpenApiFacts GoRoute SprintFacts OasExamplesFacts.

Lemma get_put_same {A} k (v : A) l : get k (put k v l) = Some v.
Proof. induction l as [|[n w] l IH]; cbn; [rewrite seqb_refl; reflexivity|]. destruct (k =?s n) eqn:E; cbn; [rewrite seqb_refl; reflexivity|rewrite E; exact IH]. Qed.
Lemma get_put_other {A} k k' (v : A) l : k' <> k -> get k (put k' v l) = get k l.
Proof.
  intros N. assert (E0 : (k =?s k') = false) by (apply seqb_neq; congruence).
  induction l as [|[n w] l IH]; cbn; [rewrite E0; reflexivity|]. destruct (k' =?s n) eqn:E; cbn; [|rewrite IH; reflexivity].
  apply seqb_eq in E. subst n. rewrite E0. reflexivity.
Qed.
Section Doc.
Context (f64 : decimal -> decimal) (sch : schema) (m : model) (Hm : new_model sch = Ok m).
Context (fuel : nat) (doc : oasdoc) (Hd : export_oas f64 m fuel = Ok doc).

Lemma names_once h h' : In h (sc_http sch) -> In h' (sc_http sch) -> h_name h = h_name h' -> h = h'.
Proof.
  intros I I' E. assert (A := proj2 (proj1 (find_http_exact sch m Hm) (h_name h) h) (conj I eq_refl)).
  assert (B := proj2 (proj1 (find_http_exact sch m Hm) (h_name h) h') (conj I' (eq_sym E))). congruence.
Qed.
Lemma doc_paths p : In p (map fst (od_paths doc)) <-> exists h, on_path sch p h.
Proof. destruct (export_ops f64 sch m Hm fuel doc Hd) as (_ & _ & K & _). apply K. Qed.
Lemma operations h : In h (sc_http sch) -> exists op, oas_operation f64 m fuel h = Ok op.
Proof. destruct (export_ops f64 sch m Hm fuel doc Hd) as (_ & _ & _ & _ & T). apply T. Qed.
(** the operations of a path *)
Lemma item_ops p pi mth o : In (p, pi) (od_paths doc) ->
  (In (mth, o) pi <-> exists h, on_path sch p h /\ h_method h = mth /\ In mth written_methods /\ oas_operation f64 m fuel h = Ok o).
Proof.
  intros I. destruct (export_ops f64 sch m Hm fuel doc Hd) as (N & D & K & O & T).
  assert (X : In (mth, o) pi <-> doc_op doc p mth o).
  { split; [intros J; exists pi; auto|]. intros (pi' & I' & J). apply (get_In _ _ _ N) in I, I'. congruence. }
  rewrite X, O. unfold on_path, written_methods. split.
  - intros (h & Ih & P & M & W & H). exists h. tauto.
  - intros (h & (Ih & P) & M & W & H). exists h. tauto.
Qed.
Lemma item_first p pi : In (p, pi) (od_paths doc) ->
  match first_op pi with
  | None => bare_path sch p
  | Some (mth, o) => exists h, leads sch p h /\ h_method h = mth /\ oas_operation f64 m fuel h = Ok o
  end.
Proof.
  intros I. destruct (export_ops f64 sch m Hm fuel doc Hd) as (N & D & _).
  assert (F := first_op_spec pi (D _ _ I)).
  assert (W : forall mth o, In (mth, o) pi -> In mth written_methods) by (intros mth o J; apply (item_ops p pi mth o I) in J; destruct J as (h & _ & _ & W & _); exact W).
  specialize (F W). destruct (first_op pi) as [[mth o]|].
  - destruct F as [J A]. apply (item_ops p pi mth o I) in J as (h & P & M & IW & H). exists h. split; [|auto]. split; [exact P|]. split; [rewrite M; exact IW|].
    intros h' P' AH. destruct (operations h' (proj1 P')) as (o' & H').
    assert (W' : In (h_method h') written_methods) by (apply ahead_iff in AH; cbn [In] in AH; unfold written_methods; cbn [In]; intuition congruence).
    apply (A (h_method h') o'); [|rewrite <- M; exact AH]. apply (item_ops p pi _ _ I). exists h'. auto.
  - split; [apply doc_paths; apply (in_map fst) in I; exact I|]. intros h P W'. destruct (operations h (proj1 P)) as (o' & H').
    apply (F (h_method h) o'). apply (item_ops p pi _ _ I). exists h. auto.
Qed.
(** at most one action leads a path, and an action leads at most one path *)
Lemma leads_path p p' h : leads sch p h -> leads sch p' h -> p = p'.
Proof. intros ((_ & A) & _) ((_ & B) & _). exact (path_part_fun _ _ _ A B). Qed.
Lemma ahead_total a b : In a written_methods -> In b written_methods -> a = b \/ ahead a b \/ ahead b a.
Proof.
  unfold written_methods. cbn [In]. rewrite !ahead_iff. cbn [In].
  intros [<-|[<-|[<-|[<-|[]]]]] [<-|[<-|[<-|[<-|[]]]]]; auto 12.
Qed.
Lemma leads_one p h h' : leads sch p h -> leads sch p h' -> h = h'.
Proof.
  intros (P & W & A) (P' & W' & A'). destruct (ahead_total _ _ W W') as [E|[X|X]]; [|destruct (A' _ P X)|destruct (A _ P' X)].
  assert (K := proj2 (doc_paths p) (ex_intro _ h P)). apply in_map_iff in K as ([q pi] & Eq & I). cbn [fst] in Eq. subst q.
  destruct (operations h (proj1 P)) as (o & O), (operations h' (proj1 P')) as (o' & O').
  assert (J : In (h_method h, o) pi) by (apply (item_ops p pi _ _ I); exists h; auto).
  assert (J' : In (h_method h, o') pi) by (apply (item_ops p pi _ _ I); exists h'; rewrite E in *; auto).
  destruct (export_ops f64 sch m Hm fuel doc Hd) as (N & D & _). specialize (D _ _ I).
  assert (o = o') by (apply (get_In _ _ _ D) in J, J'; congruence). subst o'.
  apply names_once; [exact (proj1 P)|exact (proj1 P')|]. destruct (operation_id f64 m fuel h o O) as [E1 _], (operation_id f64 m fuel h' o O') as [E2 _]. congruence.
Qed.

Section Order.
Context (paths : list (string * pathitem)) (PP : Permutation (od_paths doc) paths).
Lemma find_cases id :
  match find_operation paths id with
  | Ok (Some (p, mth, o)) => exists h, leads sch p h /\ h_name h = id /\ h_method h = mth /\ oas_operation f64 m fuel h = Ok o
  | Ok None => forall p h, leads sch p h -> h_name h <> id
  | Panic => exists p, bare_path sch p
  | _ => False
  end.
Proof.
  assert (G : forall l, (forall x, In x l -> In x (od_paths doc)) ->
    match find_operation l id with
    | Ok (Some (p, mth, o)) => exists h, leads sch p h /\ h_name h = id /\ h_method h = mth /\ oas_operation f64 m fuel h = Ok o
    | Ok None => forall p h, In p (map fst l) -> leads sch p h -> h_name h <> id
    | Panic => exists p, bare_path sch p
    | _ => False
    end).
  { induction l as [|[p pi] l IH]; intros S; cbn [find_operation]; [intros p h []|].
    assert (F := item_first p pi (S _ (or_introl eq_refl))). destruct (first_op pi) as [[mth o]|]; [|exists p; exact F].
    destruct F as (h & L & M & O). destruct (operation_id f64 m fuel h o O) as [E _]. destruct (oo_id o =?s id) eqn:Q.
    - apply seqb_eq in Q. exists h. repeat split; try assumption; try congruence; apply L.
    - specialize (IH (fun x I => S x (or_intror I))). destruct (find_operation l id) as [[[[p' mth'] o']|]| | |]; try exact IH.
      intros p' h' [<-|I] L' N; [|exact (IH _ _ I L' N)]. cbn [fst] in L'. rewrite (leads_one _ _ _ L' L) in N. rewrite <- E in N. rewrite N, seqb_refl in Q. discriminate. }
  specialize (G paths (fun x I => Permutation_in _ (Permutation_sym PP) I)).
  destruct (find_operation paths id) as [[[[p' mth'] o']|]| | |]; try exact G. intros p h L. apply (G p h); [|exact L].
  assert (X := proj2 (doc_paths p) (ex_intro _ h (proj1 L))). apply (Permutation_in (l := map fst (od_paths doc))); [|exact X].
  apply Permutation_map. exact PP.
Qed.
End Order.

(** ** The operation of an action *)
Lemma called_iff h o i k : oas_operation f64 m fuel h = Ok o -> (called o i k <-> exists q, parameter h i q /\ written_name q k).
Proof.
  intros O. destruct (operation_params f64 m fuel h o O) as ((kept & W & F) & _). unfold called, parameter.
  assert (X : forall i, match nth_error kept i, nth_error (oo_params o) i with Some q, Some r => param_stands q r | None, None => True | _, _ => False end).
  { clear -F. generalize dependent (oo_params o). clear. intros l0 F. induction F as [|q r kept l S F IH]; intros [|i]; cbn; [exact I|exact I|exact S|exact (IH i)]. }
  specialize (X i). split.
  - intros (r & E & N). rewrite E in X. destruct (nth_error kept i) as [q|] eqn:K; [|contradiction]. exists q. split; [exists kept; auto|].
    subst k. inversion X; subst; cbn [op_pname]; unfold written_name; auto 8.
  - intros (q & (kept' & W' & K) & N). rewrite (without_unique _ _ _ W' _ W) in K. rewrite K in X.
    destruct (nth_error (oo_params o) i) as [r|]; [|contradiction]. exists r. split; [reflexivity|].
    destruct N as [(A & ->)|[(A & B & ->)|(A & B & C & ->)]]; inversion X; subst; cbn [op_pname]; congruence.
Qed.
Lemma body_iff h o : oas_operation f64 m fuel h = Ok o -> (oo_body o = None <-> forall q, In q (h_inputs h) -> ~ is_body q).
Proof.
  intros O. destruct (operation_params f64 m fuel h o O) as [_ B]. split.
  - intros E q I IB. apply (proj2 B); [exists q; auto|exact E].
  - intros N. destruct (oo_body o) eqn:E; [|reflexivity]. exfalso. destruct (proj1 B) as (q & I & IB); [discriminate|]. exact (N q I IB).
Qed.
Lemma outputs_body : forall outs hs b hs' b', oas_outputs f64 m fuel outs hs b = Ok (hs', b') ->
  (b' <> None <-> b <> None \/ exists q, In q outs /\ ps_header q = "").
Proof.
  induction outs as [|p outs IH]; intros hs b hs' b' H; cbn [oas_outputs] in H.
  - injection H as _ <-. split; [auto|]. intros [X|(q & [] & _)]. exact X.
  - apply rbind_Ok in H as (s & _ & H). destruct (ps_header p =?s "") eqn:E; cbn [negb] in H; apply IH in H; rewrite H.
    + apply seqb_eq in E. split; [intros _; right; exists p; split; [left; reflexivity|exact E]|]. intros _. left. discriminate.
    + assert (NE : ps_header p <> "") by (intros X; rewrite X in E; discriminate). split.
      * intros [X|(q & I & Q)]; [auto|right; exists q; split; [right; exact I|exact Q]].
      * intros [X|(q & [<-|I] & Q)]; [auto|contradiction|right; exists q; auto].
Qed.
Lemma exceptions_at s : forall xs acc, get (sprint s) (oas_exceptions xs acc) = get (sprint s) acc \/
  exists r b, get (sprint s) (oas_exceptions xs acc) = Some r /\ or_body r = Some b /\ exists x, In x xs /\ xc_status x = s /\ s <> 0%Z.
Proof.
  unfold oas_exceptions. induction xs as [|x xs IH]; intros acc; cbn [fold_left]; [left; reflexivity|].
  set (k := if negb (xc_status x =? 0)%Z then sprint (xc_status x) else "default") in *. set (r := mkOResp _ _ _) in *.
  destruct (IH (put k r acc)) as [E|(r' & b & E & B & y & I & R)].
  - rewrite E. destruct (string_dec (sprint s) k) as [X|X].
    + right. exists r, (oas_ref (xc_type x)). split; [rewrite X; apply get_put_same|]. split; [reflexivity|]. exists x.
      unfold k in X. destruct (xc_status x =? 0)%Z eqn:Z; cbn [negb] in X; [destruct (sprint_default _ X)|].
      apply sprint_inj in X. apply Z.eqb_neq in Z. split; [left; reflexivity|]. split; congruence.
    + left. apply get_put_other. congruence.
  - right. exists r', b. split; [exact E|]. split; [exact B|]. exists y. split; [right; exact I|exact R].
Qed.
Lemma exceptions_have s : forall xs acc x, In x xs -> xc_status x = s -> s <> 0%Z -> exists r b, get (sprint s) (oas_exceptions xs acc) = Some r /\ or_body r = Some b.
Proof.
  unfold oas_exceptions. induction xs as [|x xs IH]; [intros acc y []|]. intros acc y [<-|I] E NZ; cbn [fold_left].
  - set (r := mkOResp _ _ _). assert (K : (if negb (xc_status x =? 0)%Z then sprint (xc_status x) else "default") = sprint s).
    { rewrite E. apply Z.eqb_neq in NZ. rewrite NZ. reflexivity. }
    rewrite K. destruct (exceptions_at s xs (put (sprint s) r acc)) as [X|(r' & b & X & B & _)].
    + exists r, (oas_ref (xc_type x)). split; [|reflexivity]. unfold oas_exceptions in X. rewrite X. apply get_put_same.
    + exists r', b. auto.
  - exact (IH _ y I E NZ).
Qed.
Lemma json_iff h o e : oas_operation f64 m fuel h = Ok o -> h_expected h = Some e -> (json_at o (Some (sprint (xp_status e))) <-> has_json h).
Proof.
  unfold oas_operation. intros O X. apply rbind_Ok in O as ([ps body] & _ & O). rewrite X in O. apply rbind_Ok in O as ([hs ob] & HO & O). injection O as <-.
  apply outputs_body in HO. set (r := mkOResp _ hs ob). unfold json_at, has_json. cbn [oo_responses]. split.
  - intros (k & r' & b & E & G & B). injection E as <-. exists e. split; [exact X|].
    destruct (exceptions_at (xp_status e) (h_exceptions h) [(sprint (xp_status e), r)]) as [Y|(r2 & b2 & Y & _ & x & I & Q & NZ)].
    + rewrite Y in G. cbn [get] in G. rewrite seqb_refl in G. injection G as <-. cbn [or_body r] in B. left.
      destruct (proj1 HO) as [Z|Z]; [congruence|congruence|exact Z].
    + right. exists x. split; [exact I|]. split; congruence.
  - intros (e' & X' & J). assert (e' = e) by congruence. subst e'.
    destruct J as [(q & I & Q)|(x & I & Q & NZ)].
    + destruct (exceptions_at (xp_status e) (h_exceptions h) [(sprint (xp_status e), r)]) as [Y|(r2 & b2 & Y & B & _)].
      * assert (Z : ob <> None) by (apply HO; right; exists q; auto). destruct ob as [b|]; [|congruence].
        exists (sprint (xp_status e)), r, b. split; [reflexivity|]. split; [|reflexivity]. rewrite Y. cbn [get]. rewrite seqb_refl. reflexivity.
      * exists (sprint (xp_status e)), r2, b2. auto.
    + destruct (exceptions_have (xp_status e) (h_exceptions h) [(sprint (xp_status e), r)] x I Q) as (r2 & b2 & Y & B); [congruence|].
      exists (sprint (xp_status e)), r2, b2. auto.
Qed.

(** ** One example *)
Lemma target_schema t : get t (od_schemas doc) = None <-> ~ declared sch t.
Proof.
  destruct (export_schemas f64 sch m Hm fuel doc Hd) as (L & T & N). rewrite get_None. split; intros X Y; apply X.
  - destruct Y as (td & I & E). destruct (T td I) as (s & S). apply in_map_iff. exists (t, s). split; [reflexivity|]. apply L. exists td. auto.
  - apply in_map_iff in Y as ([k s] & E & I). cbn [fst] in E. subst k. apply L in I as (td & I & E & _). exists td. auto.
Qed.
Lemma named suf t h : has_suffix suf t = true -> In h (sc_http sch) -> (h_name h = uncapitalize (drop_last (String.length suf) t) <-> names_action sch suf t h).
Proof.
  intros S I. rewrite <- (find_action sch m Hm suf t h S), (proj1 (find_http_exact sch m Hm)). split; [auto|tauto].
Qed.
Lemma named_fun suf t h h' : names_action sch suf t h -> names_action sch suf t h' -> h = h'.
Proof.
  intros (I & n & E & N) (I' & n' & E' & N'). rewrite E in E'. apply append_inj_r in E'. subst n'. apply small_first_iff in N, N'.
  apply names_once; [exact I|exact I'|congruence].
Qed.
Lemma request_fun ex p h p' h' : request_of sch ex p h -> request_of sch ex p' h' -> p = p' /\ h = h'.
Proof.
  intros (_ & N & L) (_ & N' & L'). assert (h = h') as <- by exact (named_fun _ _ _ _ N N'). split; [exact (leads_path _ _ _ L L')|reflexivity].
Qed.
Lemma response_fun ex p h p' h' : response_of sch ex p h -> response_of sch ex p' h' -> p = p' /\ h = h'.
Proof.
  intros (_ & N & L) (_ & N' & L'). assert (h = h') as <- by exact (named_fun _ _ _ _ N N'). split; [exact (leads_path _ _ _ L L')|reflexivity].
Qed.
Lemma not_both ex p h p' h' : request_of sch ex p h -> response_of sch ex p' h' -> False.
Proof. intros ((_ & R) & _) ((_ & N & _) & _). exact (N R). Qed.
Lemma key_fun ex k v w : (forall l, ex_example ex = VMap l -> NoDup (map fst l)) -> has_entry ex k v -> has_entry ex k w -> v = w.
Proof.
  intros D (l & E & I) (l' & E' & I'). assert (l' = l) by congruence. subst l'. specialize (D l E).
  apply (get_In _ _ _ D) in I, I'. congruence.
Qed.
Lemma written_name_fun q k k' : written_name q k -> written_name q k' -> k = k'.
Proof. unfold written_name. intros [(A & ->)|[(A & B & ->)|(A & B & C & ->)]] [(A' & ->)|[(A' & B' & ->)|(A' & B' & C' & ->)]]; congruence. Qed.
Lemma parameter_fun h i q q' : parameter h i q -> parameter h i q' -> q = q'.
Proof. intros (k & W & E) (k' & W' & E'). rewrite (without_unique _ _ _ W' _ W) in E'. congruence. Qed.
Lemma lands_fun ex at_ n v w : (forall l, ex_example ex = VMap l -> NoDup (map fst l)) -> lands sch ex at_ n v -> lands sch ex at_ n w -> v = w.
Proof.
  intros D A B. inversion A as [X|p h v0 R E|p h i q k v0 R E NB P W|p h e d v0 R E X Nu]; subst; inversion B as [X'|p' h' v1 R' E'|p' h' i' q' k' v1 R' E' NB' P' W'|p' h' e' d' v1 R' E' X' Nu']; subst.
  - reflexivity.
  - exact (key_fun _ _ _ _ D E E').
  - assert (h = h') as <-.
    { destruct R as [R|R], R' as [R'|R']; [exact (proj2 (request_fun _ _ _ _ _ R R'))|destruct (not_both _ _ _ _ _ R R')|destruct (not_both _ _ _ _ _ R' R)|exact (proj2 (response_fun _ _ _ _ _ R R'))]. }
    assert (q' = q) as -> by exact (parameter_fun _ _ _ _ P' P). assert (k' = k) as -> by exact (written_name_fun _ _ _ W' W). exact (key_fun _ _ _ _ D E E').
  - exact (key_fun _ _ _ _ D E E').
Qed.

Definition looks (ex : exampledef) : Prop := for_a_request sch ex \/ for_a_response sch ex.
Lemma example_cases paths ex acc : Permutation (od_paths doc) paths ->
  match export_example m doc paths ex acc with
  | Ok l => exists new, l = acc ++ new /\ (forall at_ n v, In (at_, n, v) new <-> lands sch ex at_ n v) /\ ~ breaks sch ex
  | Panic => breaks sch ex \/ (looks ex /\ exists p, bare_path sch p)
  | _ => False
  end.
Proof.
  intros PP. unfold export_example. destruct (get (ex_target ex) (od_schemas doc)) as [s|] eqn:G.
  { assert (DC : declared sch (ex_target ex)).
    { destruct (export_schemas f64 sch m Hm fuel doc Hd) as (L & _ & N). apply (get_In _ _ _ N) in G. apply L in G as (td & I & E & _). exists td. auto. }
    exists [(AtType (ex_target ex), "", ex_example ex)]. split; [reflexivity|]. split.
    - intros at_ n v. split; [intros [E|[]]; injection E as <- <- <-; constructor; exact DC|]. intros H.
      inversion H as [X|p h v0 R E|p h i q k v0 R E NB P W|p h e d v0 R E X Nu]; subst; [left; reflexivity|..]; exfalso;
        try (destruct R as [((Nd & _) & _)|((Nd & _) & _)]; exact (Nd DC)); destruct R as ((Nd & _) & _); exact (Nd DC).
    - intros B. destruct B as [p h R|p h v R|R|p h R|p h v R]; try (destruct R as ((Nd & _) & _); exact (Nd DC)). destruct R as (Nd & _); exact (Nd DC). }
  apply target_schema in G. destruct (has_suffix "Request" (ex_target ex)) eqn:SR.
  { assert (FR : for_a_request sch ex) by (split; [exact G|apply has_suffix_spec; exact SR]).
    assert (NR : ~ for_a_response sch ex) by (intros (_ & N & _); exact (N (proj2 FR))).
    assert (NRS : forall p h, ~ response_of sch ex p h) by (intros p h (X & _); exact (NR X)).
    assert (NA := fun h => named "Request" (ex_target ex) h SR). cbn [String.length] in NA.
    assert (F := find_cases paths PP (uncapitalize (drop_last 7 (ex_target ex)))).
    destruct (find_operation paths (uncapitalize (drop_last 7 (ex_target ex)))) as [[[[p mth] o]|]| | |]; cbn [rbind]; try contradiction.
    - destruct F as (h & L & Nm & <- & O). assert (RQ : request_of sch ex p h) by (split; [exact FR|]; split; [apply (NA h (proj1 (proj1 L))); exact Nm|exact L]).
      assert (NOMAP : (forall l, ex_example ex <> VMap l) -> breaks sch ex) by (intros N; apply (br_request sch ex p h RQ); intros (l & E); exact (N l E)).
      destruct (ex_example ex) as [| | | | | | | | | | | | |l] eqn:V; try (left; apply NOMAP; intros; discriminate). clear NOMAP.
      assert (S := request_entries_spec p (h_method h) (ex_name ex) o l acc). destruct (request_entries _ _ _ _ l acc) as [l'| | |]; try contradiction.
      + destruct S as (new & -> & NB & H). exists new. split; [reflexivity|]. split.
        * intros at_ n v. rewrite H. split.
          -- intros [(w & I & E)|(i & k & w & I & K & C & E)]; injection E as -> -> ->.
             ++ apply (ln_body sch ex p h); [exact RQ|exists l; auto].
             ++ apply (called_iff h o i k O) in C as (q & P & W). apply (ln_param sch ex p h i q k); auto. exists l. auto.
          -- intros X. inversion X as [Y|p' h' v0 R E|p' h' i q k v0 R E NB' P W|p' h' e d v0 R E Y Nu]; subst.
             ++ contradiction.
             ++ destruct (request_fun _ _ _ _ _ RQ R) as [<- <-]. destruct E as (l2 & E2 & I). left. exists v. split; [congruence|reflexivity].
             ++ destruct R as [R|R]; [|destruct (NRS _ _ R)]. destruct (request_fun _ _ _ _ _ RQ R) as [<- <-]. destruct E as (l2 & E2 & I). right. exists i, k, v.
                split; [congruence|]. split; [exact NB'|]. split; [|reflexivity]. apply (called_iff h o i k O). exists q. auto.
             ++ destruct (NRS _ _ R).
        * intros B. destruct B as [p' h' R NO|p' h' v R (l2 & E2 & I) NB'|R|p' h' R|p' h' v R]; [apply NO; exists l; exact V| |exact (NR R)|exact (NRS _ _ R)|exact (NRS _ _ R)].
          destruct (request_fun _ _ _ _ _ RQ R) as [<- <-]. apply (body_iff h o O) in NB'. assert (l2 = l) by congruence. subst l2. exact (NB _ I NB').
      + destruct S as (B & v & I). left. apply (br_body sch ex p h v RQ); [exists l; auto|]. apply (body_iff h o O). exact B.
    - exists []. split; [symmetry; apply app_nil_r|].
      assert (NRQ : forall p h, ~ request_of sch ex p h) by (intros p h (_ & N & L); apply (F p h L); apply (NA h (proj1 N)); exact N). split.
      + intros at_ n v. split; [intros []|]. intros X. inversion X as [Y|p' h' v0 R E|p' h' i q k v0 R E NB' P W|p' h' e d v0 R E Y Nu]; subst.
        * contradiction.
        * destruct (NRQ _ _ R).
        * destruct R as [R|R]; [destruct (NRQ _ _ R)|destruct (NRS _ _ R)].
        * destruct (NRS _ _ R).
      + intros B. destruct B as [p' h' R|p' h' v R|R|p' h' R|p' h' v R]; [exact (NRQ _ _ R)|exact (NRQ _ _ R)|exact (NR R)|exact (NRS _ _ R)|exact (NRS _ _ R)].
    - right. split; [left; exact FR|exact F]. }
  assert (NQ : ~ exists n, ex_target ex = n +++ "Request") by (intros Q; apply has_suffix_spec in Q; congruence).
  assert (NFQ : ~ for_a_request sch ex) by (intros (_ & Q); exact (NQ Q)).
  assert (NRQ : forall p h, ~ request_of sch ex p h) by (intros p h (X & _); exact (NFQ X)).
  destruct (has_suffix "Response" (ex_target ex)) eqn:SS.
  { assert (FR : for_a_response sch ex) by (split; [exact G|split; [exact NQ|apply has_suffix_spec; exact SS]]).
    assert (NA := fun h => named "Response" (ex_target ex) h SS). cbn [String.length] in NA.
    assert (F := find_cases paths PP (uncapitalize (drop_last 8 (ex_target ex)))).
    destruct (find_operation paths (uncapitalize (drop_last 8 (ex_target ex)))) as [[[[p mth] o]|]| | |]; cbn [rbind]; try contradiction.
    - destruct F as (h & L & Nm & <- & O). assert (RS : response_of sch ex p h) by (split; [exact FR|]; split; [apply (NA h (proj1 (proj1 L))); exact Nm|exact L]).
      assert (NOMAP : (forall l, ex_example ex <> VMap l) -> breaks sch ex) by (intros N; apply (br_response sch ex p h RS); intros (l & E); exact (N l E)).
      assert (EX : exists e, h_expected h = Some e).
      { clear -O. unfold oas_operation in O. apply rbind_Ok in O as ([ps body] & _ & O). destruct (h_expected h) as [e|]; [exists e; reflexivity|discriminate]. }
      destruct EX as (e & EX). assert (ST : expected_status m (uncapitalize (drop_last 8 (ex_target ex))) = Some (sprint (xp_status e))).
      { unfold expected_status. assert (X := proj2 (find_action sch m Hm "Response" (ex_target ex) h SS) (proj1 (proj2 RS))). cbn [String.length] in X. rewrite X, EX. reflexivity. }
      rewrite ST. clear ST. assert (JS := json_iff h o e O EX).
      destruct (ex_example ex) as [| | | | | | | | | | | | |l] eqn:V; try (left; apply NOMAP; intros; discriminate). clear NOMAP.
      assert (S := response_entries_spec p (h_method h) (ex_name ex) o (Some (sprint (xp_status e))) l acc). destruct (response_entries _ _ _ _ _ l acc) as [l'| | |]; try contradiction.
      + destruct S as (new & -> & NB & H). exists new. split; [reflexivity|]. split.
        * intros at_ n v. rewrite H. split.
          -- intros [(w & k & I & E0 & E)|(i & k & w & I & K & C & E)]; injection E as -> -> ->.
             ++ injection E0 as <-. apply (ln_answer sch ex p h e); [exact RS|exists l; auto|exact EX|apply sprint_numeral].
             ++ apply (called_iff h o i k O) in C as (q & P & W). apply (ln_param sch ex p h i q k); auto. exists l. auto.
          -- intros X. inversion X as [Y|p' h' v0 R E|p' h' i q k v0 R E NB' P W|p' h' e' d v0 R E Y Nu]; subst.
             ++ contradiction.
             ++ destruct (NRQ _ _ R).
             ++ destruct R as [R|R]; [destruct (NRQ _ _ R)|]. destruct (response_fun _ _ _ _ _ RS R) as [<- <-]. destruct E as (l2 & E2 & I). right. exists i, k, v.
                split; [congruence|]. split; [exact NB'|]. split; [|reflexivity]. apply (called_iff h o i k O). exists q. auto.
             ++ destruct (response_fun _ _ _ _ _ RS R) as [<- <-]. destruct E as (l2 & E2 & I). left. exists v, d. split; [congruence|].
                assert (e' = e) by congruence. subst e'. apply sprint_unique in Nu. subst d. auto.
        * intros B. destruct B as [p' h' R|p' h' v R|FR' NN|p' h' R NO|p' h' v R (l2 & E2 & I) NJ]; [exact (NRQ _ _ R)|exact (NRQ _ _ R)|exact (NN _ _ RS)|apply NO; exists l; exact V|].
          destruct (response_fun _ _ _ _ _ RS R) as [<- <-]. apply NJ, JS. assert (l2 = l) by congruence. subst l2. exact (NB _ I).
      + destruct S as (B & v & I). left. apply (br_answer sch ex p h v RS); [exists l; auto|]. intros J. apply B, JS, J.
    - left. apply (br_none sch ex FR). intros p h (_ & N & L). apply (F p h L). apply (NA h (proj1 N)). exact N.
    - right. split; [right; exact FR|exact F]. }
  assert (NRS : forall p h, ~ response_of sch ex p h) by (intros p h ((_ & _ & X) & _); apply has_suffix_spec in X; congruence).
  exists []. split; [symmetry; apply app_nil_r|]. split.
  - intros at_ n v. split; [intros []|]. intros X. inversion X as [Y|p' h' v0 R E|p' h' i q k v0 R E NB' P W|p' h' e d v0 R E Y Nu]; subst.
    + contradiction.
    + destruct (NRQ _ _ R).
    + destruct R as [R|R]; [destruct (NRQ _ _ R)|destruct (NRS _ _ R)].
    + destruct (NRS _ _ R).
  - intros B. destruct B as [p' h' R|p' h' v R|(_ & _ & R)|p' h' R|p' h' v R]; [exact (NRQ _ _ R)|exact (NRQ _ _ R)| |exact (NRS _ _ R)|exact (NRS _ _ R)].
    apply has_suffix_spec in R. congruence.
Qed.
(** an example that needs an operation stops at a bare path that is met first *)
Lemma bare_first p : bare_path sch p -> exists paths, Permutation (od_paths doc) paths /\ forall ex acc, looks ex -> export_example m doc paths ex acc = Panic.
Proof.
  intros [(h & P) N]. assert (K := proj2 (doc_paths p) (ex_intro _ h P)). apply in_map_iff in K as ([q pi] & Eq & I). cbn [fst] in Eq. subst q.
  assert (F := item_first p pi I). destruct (first_op pi) as [[mth o]|] eqn:FO.
  { exfalso. destruct F as (h' & (P' & W & _) & _). exact (N _ P' W). }
  apply in_split in I as (l1 & l2 & E). exists ((p, pi) :: l1 ++ l2). split; [rewrite E; symmetry; apply Permutation_middle|].
  assert (X : forall id, find_operation ((p, pi) :: l1 ++ l2) id = Panic) by (intros id; cbn [find_operation]; rewrite FO; reflexivity).
  intros ex acc LK. unfold export_example. assert (ND : ~ declared sch (ex_target ex)) by (destruct LK as [[A _]|[A _]]; exact A). apply target_schema in ND. rewrite ND, !X.
  destruct LK as [(_ & S)|(_ & _ & S)]; apply has_suffix_spec in S; rewrite S; [reflexivity|]. destruct (has_suffix "Request" (ex_target ex)); reflexivity.
Qed.

(** ** All of them *)
Definition order_ok (order : nat -> list (string * pathitem)) : Prop := forall i, Permutation (od_paths doc) (order i).
Lemma examples_stand order : order_ok order -> forall exs i acc l, (forall ex x, In ex exs -> ex_example ex = VMap x -> NoDup (map fst x)) ->
  export_examples m doc order i exs acc = Ok l -> forall at_ n v,
  (stands l at_ n v <-> (exists ex, last_that (fun ex => exists w, lands sch ex at_ n w) exs ex /\ lands sch ex at_ n v)
                        \/ (stands acc at_ n v /\ forall ex w, In ex exs -> ~ lands sch ex at_ n w)).
Proof.
  intros OK. induction exs as [|ex exs IH]; intros i acc l D H at_ n v; cbn [export_examples] in H.
  - injection H as <-. split; [intros S; right; split; [exact S|intros ? ? []]|]. intros [(ex & L & _)|[S _]]; [destruct (last_nil _ _ L)|exact S].
  - apply rbind_Ok in H as (acc' & E & H). specialize (IH (S i) acc' l (fun e x I => D e x (or_intror I)) H at_ n v). rewrite IH. clear IH.
    assert (C := example_cases (order i) ex acc (OK i)). rewrite E in C. destruct C as (new & -> & N & _).
    assert (FN : functional new).
    { intros a k x y A B. apply N in A, B. exact (lands_fun ex a k x y (fun l0 E0 => D ex l0 (or_introl eq_refl) E0) A B). }
    assert (ST : stands (acc ++ new) at_ n v <-> lands sch ex at_ n v \/ (stands acc at_ n v /\ forall w, ~ lands sch ex at_ n w)).
    { unfold stands at 1. rewrite last_app. fold (stands new at_ n v) (stands acc at_ n v). rewrite (stands_functional _ _ _ _ FN), N. split.
      - intros [X|[X Y]]; [auto|]. right. split; [exact X|]. intros w Z. apply N in Z. exact (Y _ Z eq_refl).
      - intros [X|[X Y]]; [auto|]. right. split; [exact X|]. intros [[a k] w] I Z. cbn [fst] in Z. injection Z as -> ->. apply N in I. exact (Y _ I). }
    rewrite ST. clear ST. split.
    + intros [(e & L & X)|[[X|[X Y]] Z]].
      * left. exists e. split; [apply last_cons; left; exact L|exact X].
      * left. exists ex. split; [|exact X]. apply last_cons. right. split; [exists v; exact X|]. split; [reflexivity|]. intros z I (w & J). exact (Z z w I J).
      * right. split; [exact X|]. intros e w [<-|I]; [exact (Y w)|exact (Z e w I)].
    + intros [(e & L & X)|[X Y]].
      * apply last_cons in L as [L|(P & -> & Z)]; [left; exists e; auto|]. right. split; [left; exact X|]. intros z w I J. apply (Z z I). exists w. exact J.
      * right. split; [right; split; [exact X|intros w; apply Y; left; reflexivity]|]. intros e w I. apply Y. right. exact I.
Qed.
Lemma examples_total order : order_ok order -> forall exs i acc,
  export_examples m doc order i exs acc = Panic \/ exists l, export_examples m doc order i exs acc = Ok l.
Proof.
  intros OK. induction exs as [|ex exs IH]; intros i acc; cbn [export_examples]; [right; eexists; reflexivity|].
  assert (C := example_cases (order i) ex acc (OK i)). destruct (export_example m doc (order i) ex acc); cbn [rbind]; try contradiction; [apply IH|left; reflexivity].
Qed.
Lemma examples_break order : order_ok order -> forall exs i acc, (exists ex, In ex exs /\ breaks sch ex) -> export_examples m doc order i exs acc = Panic.
Proof.
  intros OK. induction exs as [|ex exs IH]; intros i acc (e & I & B); [destruct I|]. cbn [export_examples].
  assert (C := example_cases (order i) ex acc (OK i)). destruct (export_example m doc (order i) ex acc) as [acc'| | |]; cbn [rbind]; try contradiction; [|reflexivity].
  destruct C as (_ & _ & _ & NB). destruct I as [->|I]; [contradiction|]. apply IH. exists e. auto.
Qed.
Lemma examples_go order : order_ok order -> forall exs i acc, (forall ex, In ex exs -> ~ breaks sch ex) ->
  (forall ex, In ex exs -> looks ex -> ~ exists p, bare_path sch p) -> exists l, export_examples m doc order i exs acc = Ok l.
Proof.
  intros OK. induction exs as [|ex exs IH]; intros i acc NB NL; cbn [export_examples]; [eexists; reflexivity|].
  assert (C := example_cases (order i) ex acc (OK i)). destruct (export_example m doc (order i) ex acc) as [acc'| | |]; cbn [rbind]; try contradiction.
  - apply IH; intros e I; [apply NB|apply NL]; right; exact I.
  - exfalso. destruct C as [B|[LK B]]; [exact (NB ex (or_introl eq_refl) B)|exact (NL ex (or_introl eq_refl) LK B)].
Qed.
Lemma examples_blame order : order_ok order -> (forall p, ~ bare_path sch p) -> forall exs i acc,
  export_examples m doc order i exs acc = Panic -> exists ex, In ex exs /\ breaks sch ex.
Proof.
  intros OK NB. induction exs as [|ex exs IH]; intros i acc H; cbn [export_examples] in H; [discriminate|].
  assert (C := example_cases (order i) ex acc (OK i)). destruct (export_example m doc (order i) ex acc) as [acc'| | |]; cbn [rbind] in H; try contradiction.
  - destruct (IH _ _ H) as (e & I & B). exists e. split; [right; exact I|exact B].
  - destruct C as [B|[_ [p P]]]; [|destruct (NB p P)]. exists ex. split; [left; reflexivity|exact B].
Qed.
Lemma examples_stuck p : bare_path sch p -> exists paths, Permutation (od_paths doc) paths /\
  forall exs i acc, (exists ex, In ex exs /\ looks ex) -> export_examples m doc (fun _ => paths) i exs acc = Panic.
Proof.
  intros BP. destruct (bare_first p BP) as (paths & PP & X). exists paths. split; [exact PP|].
  induction exs as [|ex exs IH]; intros i acc (e & I & LK); [destruct I|]. cbn [export_examples].
  assert (C := example_cases paths ex acc PP). destruct (export_example m doc paths ex acc) as [acc'| | |] eqn:E; cbn [rbind]; try contradiction; [|reflexivity].
  destruct I as [->|I]; [rewrite (X _ _ LK) in E; discriminate|]. apply IH. exists e. auto.
Qed.
Lemma examples_exact :
  (forall order, order_ok order -> exists l, export_examples m doc order 0 (sc_examples sch) [] = Ok l) <->
  (forall ex, In ex (sc_examples sch) -> ~ breaks sch ex)
  /\ ((exists ex, In ex (sc_examples sch) /\ looks ex) -> ~ exists p, bare_path sch p).
Proof.
  split.
  - intros H. split.
    + intros ex I B. destruct (H (fun _ => od_paths doc) (fun _ => Permutation_refl _)) as (l & E).
      rewrite (examples_break (fun _ => od_paths doc) (fun _ => Permutation_refl _) _ 0 []) in E; [discriminate|exists ex; auto].
    + intros LK (p & BP). destruct (examples_stuck p BP) as (paths & PP & X). destruct (H (fun _ => paths) (fun _ => PP)) as (l & E).
      rewrite (X _ 0 [] LK) in E. discriminate.
  - intros [NB NL] order OK. apply examples_go; [exact OK|exact NB|]. intros ex I LK. apply NL. exists ex. auto.
Qed.
End Doc.
