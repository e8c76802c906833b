(** When the Java files of a model can be generated. *)
From Verif Require Import GoStr Outcome Value Schema Scalars Model Misc Generator Golang GoModel GoServer OpenApi Java JavaModel
  SpecTime SpecMisc SpecModel SpecPV SpecTrace SpecGo SpecGen SpecJava ModelFacts PVFacts TraceFacts GenFacts GoModelFacts GoText JavaFacts JavaText JavaFiles.
From Coq Require Import Lia Permutation.

Lemma name_no_error dec_text m o f : forall ts n r x, type_name dec_text m o f ts n r = Ok x -> ~ In JError (jn_events x).
Proof.
  induction f as [|f IH]; intros ts n r x H; [discriminate|]. cbn [type_name] in H.
  destruct (if r then primitive_type n else None); [injection H as <-; intros []|].
  apply rbind_Ok in H as (y & H & E). injection E as <-. cbn [jn_events with_events]. intros I. apply in_app_or in I as [I|I]; [destruct r; cbn in I; intuition discriminate|].
  revert I. match goal with |- ?G => change G end.
  set (nm := match primitive_type n with Some p => if p =?s "int" then "Integer" else capitalize p | None => n end) in H. clearbody nm.
  assert (St : forall e a, ~ In JError (jn_events (timestamp_name o e a))) by (intros e a; unfold timestamp_name; destruct (jo_instants o); cbn; intuition discriminate).
  destruct (nm =?s "String").
  { unfold string_annos, size_annos in H. destruct ts as [ts|]; [|injection H as <-; intros []].
    destruct (ts_pattern ts =?s ""), (ts_minsize ts), (ts_maxsize ts); injection H as <-; cbn; intuition discriminate. }
  destruct (str_mem nm boxed_names); [injection H as <-; intros []|].
  destruct (nm =?s "Decimal"); [injection H as <-; cbn; intuition discriminate|].
  destruct (nm =?s "Timestamp"); [injection H as <-; apply St|].
  destruct (nm =?s "Array").
  { destruct ts as [ts|]; [|injection H as <-; cbn; intuition discriminate]. destruct (find_type m (ts_items ts)); [|discriminate].
    apply rbind_Ok in H as (i & Hi & H). injection H as <-. apply IH in Hi. cbn [jn_events In]. intuition discriminate. }
  destruct (nm =?s "Map").
  { destruct ts as [ts|]; [|injection H as <-; cbn; intuition discriminate]. destruct (find_type m (ts_keys ts)); [|discriminate].
    apply rbind_Ok in H as (k & Hk & H). destruct (find_type m (ts_items ts)); [|discriminate].
    apply rbind_Ok in H as (i & Hi & H). injection H as <-. apply IH in Hi, Hk. cbn [jn_events In]. rewrite in_app_iff. intuition discriminate. }
  destruct (nm =?s "UUID"); [injection H as <-; cbn; intuition discriminate|].
  destruct (nm =?s "Any"); [injection H as <-; cbn; intuition discriminate|].
  destruct (find_type m nm) as [td|]; [|injection H as <-; intros []]. cbv zeta in H.
  destruct (str_mem _ _); [exact (IH _ _ _ _ H)|]. destruct (_ =?s "String"); [exact (IH _ _ _ _ H)|].
  destruct (_ =?s "Array"); [exact (IH _ _ _ _ H)|]. destruct (_ =?s "Map"); [exact (IH _ _ _ _ H)|].
  destruct (_ && _)%bool; [injection H as <-; intros []|].
  destruct (_ =?s "UUID"); [injection H as <-; cbn; intuition discriminate|].
  destruct (_ =?s "Decimal"); [injection H as <-; cbn; intuition discriminate|].
  destruct (_ =?s "Timestamp"); [injection H as <-; apply St|]. injection H as <-. intros [].
Qed.

(** a text without an error *)
Definition fine (p : piece) : Prop := exists s e, p = Ok (s, e) /\ ~ In JError e.
Lemma pieces_fine {A} (f : A -> piece) l : (forall x, In x l -> fine (f x)) -> fine (pieces f l).
Proof.
  induction l as [|x l IH]; intros H; [exists "", []; split; [reflexivity|intros []]|].
  destruct (H x (or_introl eq_refl)) as (s & e & E & N). destruct (IH (fun y I => H y (or_intror I))) as (s' & e' & E' & N').
  exists (s +++ s'), (e ++ e'). cbn [pieces]. rewrite E, E'. split; [reflexivity|]. rewrite in_app_iff. tauto.
Qed.
Lemma fine_pieces {A} (f : A -> piece) l : fine (pieces f l) -> forall x, In x l -> fine (f x).
Proof.
  induction l as [|x l IH]; intros (s & e & H & N) y I; [destruct I|]. cbn [pieces] in H. apply rbind_Ok in H as ([s1 e1] & H1 & H). apply rbind_Ok in H as ([s2 e2] & H2 & H).
  apply ok_pair in H as [-> ->]. rewrite in_app_iff in N. destruct I as [<- |I]; [exists s1, e1; tauto|]. apply IH; [exists s2, e2; tauto|exact I].
Qed.
Lemma fine_bind {A} (p : result unit A) (k : A -> piece) : (exists x, p = Ok x /\ fine (k x)) -> fine (rbind p k).
Proof. intros (x & -> & F). exact F. Qed.

Section GOOD.
Context (dec_text : decimal -> string) (sch : schema) (m : model) (Hm : new_model sch = Ok m) (o : jopts)
        (ord : list string -> list string) (Hord : forall l, Permutation (ord l) l).
Notation un := (use_name dec_text m o).
Definition names (f : nat) (ts : typespec) (r : bool) : Prop := exists x, un f ts r = Ok x.
Lemma java_names ts r : has_java sch (jo_instants o) (Some ts) (ts_type ts) r -> ev (fun f => names f ts r).
Proof. intros (t & a & U). apply (use_named dec_text sch m Hm o) in U. revert U. apply ev_mono. intros f (x & H & _). exists x. exact H. Qed.
Lemma names_java f ts r : names f ts r -> has_java sch (jo_instants o) (Some ts) (ts_type ts) r.
Proof. intros (x & H). apply (name_shows dec_text sch m Hm o) in H as (t & a & U & _). exists t, a. exact U. Qed.
Lemma names_fine f ts r k : names f ts r -> fine (JavaModel.named dec_text m o f ts r k).
Proof. intros (x & H). unfold JavaModel.named. rewrite H. cbn [rbind]. exists (k (jn_text x)), (jn_events x). split; [reflexivity|exact (name_no_error _ _ _ _ _ _ _ _ H)]. Qed.
Lemma cap_ok n : n <> "" -> exists c, go_capitalize n = Ok c.
Proof. destruct n; [congruence|]. cbn. eauto. Qed.

Lemma args_fine f l : (forall x : fielddef, In x l -> names f (fd_spec x) (fd_required x)) -> exists a e, typed_args dec_text m o f l = Ok (a, e) /\ ~ In JError e.
Proof.
  induction l as [|x l IH]; intros H; [exists [], []; split; [reflexivity|intros []]|]. destruct (H x (or_introl eq_refl)) as (y & Hy).
  destruct (IH (fun z I => H z (or_intror I))) as (a & e & E & N). cbn [typed_args]. rewrite Hy, E. cbn [rbind]. eexists _, _. split; [reflexivity|].
  rewrite in_app_iff. pose proof (name_no_error _ _ _ _ _ _ _ _ Hy). tauto.
Qed.
Lemma uargs_fine f l : (forall x : variantdef, In x l -> names f (uv_spec x) false) -> exists a e, union_args dec_text m o f l = Ok (a, e) /\ ~ In JError e.
Proof.
  induction l as [|x l IH]; intros H; [exists [], []; split; [reflexivity|intros []]|]. destruct (H x (or_introl eq_refl)) as (y & Hy).
  destruct (IH (fun z I => H z (or_intror I))) as (a & e & E & N). cbn [union_args]. rewrite Hy, E. cbn [rbind]. eexists _, _. split; [reflexivity|].
  rewrite in_app_iff. pose proof (name_no_error _ _ _ _ _ _ _ _ Hy). tauto.
Qed.
Lemma constructor_fine f cls i l : (forall x : fielddef, In x l -> names f (fd_spec x) (fd_required x)) -> fine (emit_constructor dec_text m o f cls i l).
Proof. intros H. destruct (args_fine f l H) as (a & e & E & N). unfold emit_constructor. rewrite E. cbn [rbind]. eexists _, _. split; [reflexivity|exact N]. Qed.
Lemma getter_fine f i (x : fielddef) : names f (fd_spec x) (fd_required x) -> fd_name x <> "" -> fine (emit_getter dec_text m o f i x).
Proof.
  intros (y & Hy) N. destruct (cap_ok _ N) as [c C]. unfold emit_getter. rewrite Hy. cbn [rbind]. rewrite C. cbn [rbind]. eexists _, _. split; [reflexivity|].
  exact (name_no_error _ _ _ _ _ _ _ _ Hy).
Qed.
Lemma setter_fine f cls i (x : fielddef) : names f (fd_spec x) (fd_required x) -> (in_place (fd_spec x) -> fd_name x <> "") -> fine (emit_setter dec_text m o f cls i x).
Proof.
  intros (y & Hy) N. unfold emit_setter. rewrite Hy. cbn [rbind]. pose proof (name_shows dec_text sch m Hm o _ _ _ _ _ Hy) as (_ & _ & _ & _ & _ & A). unfold anon_of in A.
  destruct (string_dec (ts_type (fd_spec x)) "Struct") as [E|E]; rewrite A.
  - destruct (cap_ok _ (N E)) as [c C]. rewrite C. cbn [rbind]. eexists _, _. split; [reflexivity|exact (name_no_error _ _ _ _ _ _ _ _ Hy)].
  - cbn [rbind]. eexists _, _. split; [reflexivity|exact (name_no_error _ _ _ _ _ _ _ _ Hy)].
Qed.
Lemma builder_fine f cls i l : (forall x : fielddef, In x l -> names f (fd_spec x) (fd_required x) /\ fd_name x <> "") -> fine (emit_builder dec_text m o f cls i l).
Proof.
  intros H. unfold emit_builder. cbv zeta.
  match goal with |- fine (rbind ?p _) => assert (F : fine p) by (apply pieces_fine; intros x I; apply names_fine, H, I) end. destruct F as (s1 & e1 & -> & N1). cbn [rbind].
  match goal with |- fine (rbind ?p _) => assert (F : fine p) end.
  { apply pieces_fine. intros x I. destruct (cap_ok _ (proj2 (H x I))) as [c C]. rewrite C. cbn [rbind]. eexists _, _. split; [reflexivity|intros []]. }
  destruct F as (s2 & e2 & -> & N2). cbn [rbind].
  match goal with |- fine (rbind ?p _) => assert (F : fine p) end.
  { apply pieces_fine. intros x I. cbv zeta.
    match goal with |- fine (rbind ?p _) => assert (F : fine p) by (apply names_fine, H, I); destruct F as (s & e & -> & N) end. cbn [rbind]. eexists _, _. split; [reflexivity|].
    rewrite in_app_iff. intros [J|J]; [contradiction|]. destruct (_ && _)%bool; cbn in J; intuition discriminate. }
  destruct F as (s3 & e3 & -> & N3). cbn [rbind]. eexists _, _. split; [reflexivity|]. rewrite !in_app_iff. tauto.
Qed.
Section MEMBERS.
Context {A : Type} (name before : A -> string) (decl : A -> string -> string) (spec : A -> typespec) (required keyword : A -> bool) (f : nat) (cls i : string).
Notation em := (emit_members dec_text m o f name before decl spec required keyword cls i).
Definition member_good (x : A) : Prop := keyword x = false /\ names f (spec x) (required x) /\ (in_place (spec x) -> name x <> "") /\ ~ nest_of name spec x cls.
Lemma members_fine l : forall done ns, holds name spec done ns -> (forall x p, In (x, p) l -> member_good x) ->
  exists s e ns', em l ns = Ok (s, e, ns', false) /\ ~ In JError e /\ holds name spec (done ++ l) ns'.
Proof.
  induction l as [|[x p] l IH]; intros done ns D H; [exists "", [], ns; rewrite app_nil_r; split; [reflexivity|]; split; [intros []|exact D]|]. cbn [emit_members].
  destruct (H x p (or_introl eq_refl)) as (K & (y & Hy) & Nn & Nc). rewrite K, Hy. cbn [rbind].
  pose proof (name_shows dec_text sch m Hm o _ _ _ _ _ Hy) as (_ & _ & _ & _ & _ & Av). unfold anon_of in Av. pose proof (name_no_error _ _ _ _ _ _ _ _ Hy) as Ne.
  destruct (string_dec (ts_type (spec x)) "Struct") as [E|E]; rewrite Av.
  - destruct (cap_ok _ (Nn E)) as [c C]. rewrite C. cbn [rbind]. apply cap_big in C as [_ ->].
    destruct (big_first (name x) =?s cls) eqn:Ec; [apply seqb_eq in Ec; destruct Nc; split; [exact E|congruence]|].
    destruct (IH (done ++ [(x, p)]) (assoc_set (big_first (name x)) p ns) (holds_set _ _ _ _ _ p D E) (fun z q I => H z q (or_intror I))) as (s & e & ns' & -> & N & D').
    rewrite <- app_assoc in D'. cbn [rbind]. eexists _, _, _. split; [reflexivity|]. split; [rewrite in_app_iff; tauto|exact D'].
  - cbn [rbind]. destruct (IH (done ++ [(x, p)]) ns (holds_skip _ _ _ _ _ p D E) (fun z q I => H z q (or_intror I))) as (s & e & ns' & -> & N & D').
    rewrite <- app_assoc in D'. cbn [rbind]. eexists _, _, _. split; [reflexivity|]. split; [rewrite in_app_iff; tauto|exact D'].
Qed.
Lemma members_back l : forall done ns s e ns', holds name spec done ns -> em l ns = Ok (s, e, ns', false) ->
  (forall x p, In (x, p) l -> member_good x) /\ holds name spec (done ++ l) ns'.
Proof.
  induction l as [|[x p] l IH]; intros done ns s e ns' D H; cbn [emit_members] in H; [injection H as <- <- <-; rewrite app_nil_r; split; [intros x p []|exact D]|].
  destruct (keyword x) eqn:K; [discriminate|]. apply rbind_Ok in H as (y & Hy & H). apply rbind_Ok in H as (tn & Ht & H).
  pose proof (name_shows dec_text sch m Hm o _ _ _ _ _ Hy) as (_ & _ & _ & _ & _ & Av). unfold anon_of in Av.
  destruct (string_dec (ts_type (spec x)) "Struct") as [E|E]; rewrite Av in H, Ht.
  - apply cap_big in Ht as [Nn ->]. destruct (big_first (name x) =?s cls) eqn:Ec; [discriminate|]. apply seqb_neq in Ec. apply rbind_Ok in H as ([[[s1 e1] n1] b1] & H1 & H).
    injection H as _ _ <- ->. destruct (IH _ _ _ _ _ (holds_set _ _ _ _ _ p D E) H1) as [B C]. rewrite <- app_assoc in C. split; [|exact C].
    intros z q [I|I]; [injection I as <- <-|exact (B z q I)]. split; [exact K|]. split; [exists y; exact Hy|]. split; [auto|]. intros [_ Q]. congruence.
  - apply rbind_Ok in H as ([[[s1 e1] n1] b1] & H1 & H).
    injection H as _ _ <- ->. destruct (IH _ _ _ _ _ (holds_skip _ _ _ _ _ p D E) H1) as [B C]. rewrite <- app_assoc in C. split; [|exact C].
    intros z q [I|I]; [injection I as <- <-|exact (B z q I)]. split; [exact K|]. split; [exists y; exact Hy|]. split; [intros J; contradiction|]. intros [J _]. contradiction.
Qed.
End MEMBERS.
Section NESTED.
Context {A : Type} (name : A -> string) (spec : A -> typespec) (slot_of : A -> slot).
Context (Hname : forall a, slot_name (slot_of a) = name a) (Hspec : forall a, slot_spec (slot_of a) = spec a).
Context (f : nat) (l : list A) (i : string) (ns : inners).
Notation cstruct := (create_struct dec_text m o f ord).
Context (Hns : holds name spec (map (fun a => (a, cstruct (spec a) (capitalize (name a)) i [])) l) ns).
Lemma nested_fine : (forall s k, last_nest (map slot_of l) s k -> fine (cstruct (slot_spec s) k i [])) -> fine (emit_nested ord ns).
Proof.
  intros H. apply pieces_fine. intros k _. destruct (assoc k ns) as [p|] eqn:Ek; [|exists "", []; split; [reflexivity|intros []]].
  destruct (held_last _ _ _ _ _ name spec slot_of Hname Hspec l i ns Hns k p Ek) as (a & _ & -> & L). rewrite <- Hspec. exact (H _ _ L).
Qed.
Lemma fine_nested : fine (emit_nested ord ns) -> forall s k, last_nest (map slot_of l) s k -> fine (cstruct (slot_spec s) k i []).
Proof.
  intros H s k L. destruct (last_held _ _ _ _ _ name spec slot_of Hname Hspec l i ns Hns s k L) as (p & Ek).
  destruct (held_last _ _ _ _ _ name spec slot_of Hname Hspec l i ns Hns k p Ek) as (a & _ & E & L'). rewrite (last_one _ _ _ _ L L'), Hspec, <- E.
  assert (I : In k (ord (map fst ns))) by (apply (Permutation_in _ (Permutation_sym (Hord _))); apply assoc_In in Ek; apply in_map_iff; exists (k, p); auto).
  pose proof (fine_pieces _ _ H k I) as F. cbv beta in F. rewrite Ek in F. exact F.
Qed.
End NESTED.
Lemma nests_dec s c : {nests s c} + {~ nests s c}.
Proof.
  unfold nests, in_place. destruct (string_dec (ts_type (slot_spec s)) "Struct") as [E|E]; [|right; tauto].
  destruct (string_dec c (big_first (slot_name s))) as [F|F]; [left|right]; rewrite big_large; tauto.
Qed.
Lemma ev_last (Q : slot -> string -> nat -> Prop) ss : (forall s c, last_nest ss s c -> ev (Q s c)) -> ev (fun f => forall s c, last_nest ss s c -> Q s c f).
Proof.
  induction ss as [|x ss IH]; intros H; [apply ev_now; intros f s c (_ & [|] & b & E & _); discriminate|].
  assert (Up : forall s c, last_nest ss s c -> last_nest (x :: ss) s c) by (intros s c (N & a & b & -> & L); split; [exact N|]; exists (x :: a), b; auto).
  pose proof (IH (fun s c L => H s c (Up s c L))) as IH'. set (c0 := big_first (slot_name x)).
  assert (K : ev (fun f => last_nest (x :: ss) x c0 -> (forall s', In s' ss -> ~ nests s' c0) -> Q x c0 f)).
  { destruct (nests_dec x c0) as [N|N]; [|apply ev_now; intros f [N' _]; contradiction].
    destruct (Exists_dec (fun s' => nests s' c0) ss (fun s' => nests_dec s' c0)) as [X|X].
    - apply ev_now. intros f _ L. apply Exists_exists in X as (s' & I & X). destruct (L s' I X).
    - assert (L : last_nest (x :: ss) x c0) by (split; [exact N|]; exists [], ss; split; [reflexivity|]; intros s' I J; apply X, Exists_exists; eauto).
      generalize (H _ _ L). apply ev_mono. auto. }
  generalize (ev_and _ _ K IH'). apply ev_mono. intros f [F1 F2] s c L. pose proof L as (N & a & b & E & Ln). destruct a as [|y a]; cbn [app] in E.
  - injection E as <- <-. pose proof (proj1 (big_large _ _) (proj2 N)) as Ec. subst c. exact (F1 L Ln).
  - injection E as <- ->. apply F2. split; [exact N|]. exists a, b. auto.
Qed.
Notation fgood := (fields_good sch (jo_instants o) (jo_lombok o) (jo_immutable o)).
Lemma slot_names n c r ts cls : slot_good sch (jo_instants o) cls (n, c, r, ts) -> ev (fun f => names f ts r).
Proof. intros (_ & H & _). exact (java_names _ _ H). Qed.
Lemma whole_iff thrown (P : Prop) : (thrown = true <-> P) -> (jo_lombok o && negb thrown)%bool = false <-> whole (jo_lombok o) P.
Proof. intros H. unfold whole. rewrite <- H. destruct (jo_lombok o), thrown; cbn; intuition congruence. Qed.
Lemma rbind_now {E A B} (x : A) (k : A -> result E B) : rbind (Ok x) k = k x.
Proof. reflexivity. Qed.
Lemma in_e {A} (x : A) a b : ~ In x (a ++ b) <-> ~ In x a /\ ~ In x b.
Proof. rewrite in_app_iff. tauto. Qed.
Lemma pretty_no_error : ~ In JError (snd (emit_pretty o)).
Proof. unfold emit_pretty. destruct (jo_json o); cbn; intuition discriminate. Qed.
Lemma imports_no_error b l : ~ In JError (if b : bool then map JImport l else []).
Proof. destruct b; [|intros []]. intros I. apply in_map_iff in I as (x & E & _). discriminate. Qed.
Lemma field_member (f : nat) cls (x : fielddef) : names f (fd_spec x) (fd_required x) -> fd_name x <> "package" -> slot_good sch (jo_instants o) cls (field_slot x) ->
  member_good (fun f : fielddef => fd_name f) (fun f => fd_spec f) (fun f => fd_required f) (fun f => reserved_keyword (fd_name f)) f cls x.
Proof.
  intros N K (A & _ & B). split; [apply seqb_neq, K|]. split; [exact N|]. split; [exact B|].
  intros H. apply A. apply (nest_slot (fun f : fielddef => fd_name f) (fun f => fd_spec f) field_slot (fun _ => eq_refl) (fun _ => eq_refl)), H.
Qed.
Lemma member_field (f : nat) cls (x : fielddef) :
  member_good (fun f : fielddef => fd_name f) (fun f => fd_spec f) (fun f => fd_required f) (fun f => reserved_keyword (fd_name f)) f cls x ->
  names f (fd_spec x) (fd_required x) /\ fd_name x <> "package" /\ slot_good sch (jo_instants o) cls (field_slot x).
Proof.
  intros (K & N & B & A). split; [exact N|]. split; [apply seqb_neq, K|]. split; [|split; [exact (names_java _ _ _ N)|exact B]].
  intros H. apply A. apply (nest_slot (fun f : fielddef => fd_name f) (fun f => fd_spec f) field_slot (fun _ => eq_refl) (fun _ => eq_refl)), H.
Qed.
Lemma struct_fine ts : forall cls (P : Prop), P \/ ~ P -> fgood (ts_fields ts) cls P ->
  ev (fun f => forall i exc, (str_mem cls exc = true <-> P) -> fine (create_struct dec_text m o f ord ts cls i exc)).
Proof.
  induction ts as [ts IHf _] using typespec_ind'. rewrite Forall_forall in IHf. intros cls P Dec G.
  destruct ts as [t p v mns mxs fs es mn mx it kt vs un w rf]. cbn [ts_fields] in IHf, G. inversion G as [fs' n' P' G1 G2 E1 E2 E3]. clear G. subst fs' n' P'.
  assert (N : ev (fun f => forall x : fielddef, In x fs -> names f (fd_spec x) (fd_required x))) by (apply ev_all; intros x I; exact (slot_names _ _ _ _ _ (proj2 (G1 x I)))).
  assert (I : ev (fun f => whole (jo_lombok o) P -> forall s c, last_nest (map field_slot fs) s c -> forall i, fine (create_struct dec_text m o f ord (slot_spec s) c i []))).
  { assert (D : whole (jo_lombok o) P -> ev (fun f => forall s c, last_nest (map field_slot fs) s c -> forall i, fine (create_struct dec_text m o f ord (slot_spec s) c i []))).
    { intros W. apply ev_last. intros s c L. pose proof (proj2 (G2 W) s c L) as Gs. assert (Is : exists x, In x fs /\ s = field_slot x).
      { destruct L as (_ & a & b & E & _). assert (J : In s (map field_slot fs)) by (rewrite E; apply in_elt). apply in_map_iff in J as (x & <- & J). eauto. }
      destruct Is as (x & J & ->). cbn [slot_spec field_slot snd] in Gs |- *. generalize (IHf x J c False (or_intror (fun f => f)) Gs). apply ev_mono. intros f H i. apply H. cbn. intuition discriminate. }
    assert (Dw : whole (jo_lombok o) P \/ ~ whole (jo_lombok o) P) by (unfold whole; clear -Dec; destruct (jo_lombok o); intuition congruence).
    destruct Dw as [W|W]; [generalize (D W); apply ev_mono; auto|apply ev_now; intros f W'; contradiction]. }
  generalize (ev_and _ _ N I). apply ev_mono. clear N I. intros f [N I] i exc HP. cbn [create_struct ts_fields]. cbv zeta.
  match goal with |- fine (rbind (emit_members _ _ _ _ ?a ?b ?c ?d ?r ?k _ _ ?l _) _) =>
    destruct (members_fine a b c d r k f cls i l [] [] (holds_nil _ _)) as (ms & e1 & ns & -> & Ne & H) end.
  { intros x q J. apply in_map_iff in J as (y & Ey & J). injection Ey as -> _. apply field_member; [exact (N x J)| |]; apply (G1 x J). }
  cbn [app] in H. rewrite rbind_now. cbv beta iota. set (thrown := str_mem cls exc) in *. match goal with |- fine (if _ then Ok (?a, ?b ++ _) else _)%bool => assert (N0 : ~ In JError b) end.
  { clear. clearbody thrown. unfold jackson, not_null. generalize (existsb (fun g : fielddef => negb (fd_required g)) fs). intros q.
    assert (K : ~ In JError (match fs with [] => [] | _ => [JImport "lombok.AllArgsConstructor"] end)) by (destruct fs; cbn; intuition discriminate).
    generalize dependent (match fs with [] => [] | _ => [JImport "lombok.AllArgsConstructor"] end). intros k K. rewrite !in_e.
    destruct q, (jo_immutable o), thrown, (i =?s ""), (jo_lombok o); cbn; rewrite ?in_app_iff; cbn; intuition discriminate. }
  destruct (jo_lombok o && negb thrown)%bool eqn:El; [eexists _, _; split; [reflexivity|]; apply in_e; auto|].
  apply (whole_iff thrown P HP) in El. specialize (I El). destruct (G2 El) as [G3 _].
  match goal with |- fine (rbind ?p _) => assert (B : fine p) end.
  { destruct (jo_immutable o).
    - destruct (constructor_fine f cls i fs N) as (a & ea & -> & Na). cbn [rbind].
      destruct (pieces_fine (emit_getter dec_text m o f i) fs (fun x J => getter_fine f i x (N x J) (G3 eq_refl x J))) as (b & eb & -> & Nb). cbn [rbind].
      destruct (builder_fine f cls (i +++ "    ") fs (fun x J => conj (N x J) (G3 eq_refl x J))) as (c & ec & -> & Nc). cbn [rbind]. eexists _, _. split; [reflexivity|]. rewrite !in_e. auto.
    - apply pieces_fine. intros x J. apply setter_fine; [exact (N x J)|]. apply (G1 x J). }
  destruct B as (body & e2 & -> & N2). cbn [rbind]. pose proof pretty_no_error as N3. destruct (emit_pretty o) as [pt e3]. cbn [snd] in N3.
  destruct (nested_fine (fun f : fielddef => fd_name f) (fun f => fd_spec f) field_slot (fun _ => eq_refl) (fun _ => eq_refl) f fs (i +++ "    ") ns H) as (inn & e4 & -> & N4); [intros s k L; apply (I s k L)|].
  cbn [rbind]. eexists _, _. split; [reflexivity|]. apply in_e. split; [exact N0|]. rewrite !in_e. auto.
Qed.
Lemma fine_struct f ts : forall cls i exc (P : Prop), (str_mem cls exc = true <-> P) -> fine (create_struct dec_text m o f ord ts cls i exc) -> fgood (ts_fields ts) cls P.
Proof.
  induction ts as [ts IHf _] using typespec_ind'. rewrite Forall_forall in IHf. intros cls i exc P HP (s & e & H & Ne).
  destruct ts as [t p v mns mxs fs es mn mx it kt vs un w rf]. cbn [create_struct ts_fields] in IHf, H |- *. cbv zeta in H. set (thrown := str_mem cls exc) in *.
  apply rbind_Ok in H as ([[[ms e1] ns] bad] & HM & H).
  destruct bad; [apply ok_pair in H as [_ ->]; exfalso; apply Ne, in_or_app; right; apply in_or_app; right; now left|].
  apply members_back with (done := []) in HM as [M Hh]; [|apply holds_nil]. cbn [app] in Hh.
  assert (M' : forall x : fielddef, In x fs -> names f (fd_spec x) (fd_required x) /\ fd_name x <> "package" /\ slot_good sch (jo_instants o) cls (field_slot x)).
  { intros x J. apply member_field, (M x (create_struct dec_text m o f ord (fd_spec x) (capitalize (fd_name x)) (i +++ "    ") [])). apply in_map_iff. exists x. auto. }
  constructor; [intros x J; apply (M' x J)|]. intros W. apply (whole_iff thrown P HP) in W. rewrite W in H.
  apply rbind_Ok in H as ([body e2] & HB & H). destruct (emit_pretty o) as [pt e3]. apply rbind_Ok in H as ([inner e4] & HN & H). apply ok_pair in H as [_ ->]. rewrite !in_e in Ne.
  split.
  - intros Im x J. rewrite Im in HB. apply rbind_Ok in HB as ([a ea] & Ha & HB). apply rbind_Ok in HB as ([b eb] & Hb & HB). apply rbind_Ok in HB as ([c ec] & Hc & HB).
    apply ok_pair in HB as [_ ->]. rewrite !in_e in Ne.
    assert (F : fine (pieces (emit_getter dec_text m o f i) fs)) by (exists b, eb; tauto).
    destruct (fine_pieces _ _ F x J) as (s1 & e5 & K & _). unfold emit_getter in K. apply rbind_Ok in K as (y & _ & K). apply rbind_Ok in K as (c1 & C & _). apply cap_big in C as [C _]. exact C.
  - intros s0 c L. assert (F : fine (emit_nested ord ns)) by (exists inner, e4; tauto).
    pose proof (fine_nested (fun f : fielddef => fd_name f) (fun f => fd_spec f) field_slot (fun _ => eq_refl) (fun _ => eq_refl) f fs (i +++ "    ") ns Hh F s0 c L) as Fs.
    assert (Is : exists x, In x fs /\ s0 = field_slot x).
    { destruct L as (_ & a & b & E & _). assert (J : In s0 (map field_slot fs)) by (rewrite E; apply in_elt). apply in_map_iff in J as (x & <- & J). eauto. }
    destruct Is as (x & J & ->). cbn [slot_spec field_slot snd] in Fs |- *. apply (IHf x J c (i +++ "    ") [] False); [cbn; intuition discriminate|exact Fs].
Qed.
Notation sgood := (slot_good sch (jo_instants o)).
Lemma variant_member (f : nat) cls (x : variantdef) : names f (uv_spec x) false -> sgood cls (variant_slot x) ->
  member_good (fun f : variantdef => uv_name f) (fun f => uv_spec f) (fun _ => false) (fun _ => false) f cls x.
Proof.
  intros N (A & _ & B). split; [reflexivity|]. split; [exact N|]. split; [exact B|].
  intros H. apply A. apply (nest_slot (fun f : variantdef => uv_name f) (fun f => uv_spec f) variant_slot (fun _ => eq_refl) (fun _ => eq_refl)), H.
Qed.
Lemma member_variant (f : nat) cls (x : variantdef) :
  member_good (fun f : variantdef => uv_name f) (fun f => uv_spec f) (fun _ => false) (fun _ => false) f cls x ->
  names f (uv_spec x) false /\ sgood cls (variant_slot x).
Proof.
  intros (_ & N & B & A). split; [exact N|]. split; [|split; [exact (names_java _ _ _ N)|exact B]].
  intros H. apply A. apply (nest_slot (fun f : variantdef => uv_name f) (fun f => uv_spec f) variant_slot (fun _ => eq_refl) (fun _ => eq_refl)), H.
Qed.
Definition union_good (vs : list variantdef) (n : string) : Prop :=
  (forall v, In v vs -> uv_name v <> "" /\ sgood n (variant_slot v))
  /\ (forall s c, last_nest (map variant_slot vs) s c -> fgood (ts_fields (slot_spec s)) c False).
Lemma union_fine vs cls : union_good vs cls -> ev (fun f => fine (create_union dec_text m o f ord vs cls)).
Proof.
  intros [G1 G2].
  assert (N : ev (fun f => forall x : variantdef, In x vs -> names f (uv_spec x) false)) by (apply ev_all; intros x I; exact (slot_names _ _ _ _ _ (proj2 (G1 x I)))).
  assert (I : ev (fun f => forall s c, last_nest (map variant_slot vs) s c -> forall i, fine (create_struct dec_text m o f ord (slot_spec s) c i []))).
  { apply ev_last. intros s c L. generalize (struct_fine (slot_spec s) c False (or_intror (fun f => f)) (G2 s c L)). apply ev_mono. intros f H i. apply H. cbn. intuition discriminate. }
  generalize (ev_and _ _ N I). apply ev_mono. clear N I. intros f [N I]. unfold create_union. cbv zeta.
  match goal with |- fine (rbind (emit_members _ _ _ _ ?a ?b ?c ?d ?r ?k _ ?i ?l _) _) =>
    destruct (members_fine a b c d r k f cls i l [] [] (holds_nil _ _)) as (ms & e1 & ns & -> & Ne & H) end.
  { intros x q J. apply in_map_iff in J as (y & Ey & J). injection Ey as -> _. apply variant_member; [exact (N x J)|]; apply (G1 x J). }
  cbn [app] in H. rewrite rbind_now. cbv beta iota.
  destruct (uargs_fine f vs N) as (a & e2 & -> & N2). rewrite rbind_now. cbv beta iota.
  match goal with |- fine (rbind ?p _) => assert (B : fine p) end.
  { apply pieces_fine. intros x J. destruct (N x J) as (y & Hy). rewrite Hy. cbn [rbind]. destruct (cap_ok _ (proj1 (G1 x J))) as [c ->]. cbn [rbind]. eexists _, _. split; [reflexivity|].
    exact (name_no_error _ _ _ _ _ _ _ _ Hy). }
  destruct B as (body & e3 & -> & N3). rewrite rbind_now. cbv beta iota. pose proof pretty_no_error as N4. destruct (emit_pretty o) as [pt e4]. cbn [snd] in N4.
  destruct (nested_fine (fun f : variantdef => uv_name f) (fun f => uv_spec f) variant_slot (fun _ => eq_refl) (fun _ => eq_refl) f vs "    " ns H) as (inn & e5 & -> & N5); [intros s k L; apply (I s k L)|].
  rewrite rbind_now. cbv beta iota. eexists _, _. split; [reflexivity|]. apply in_e. split; [|rewrite !in_e; auto].
  clear. unfold jackson. destruct (jo_lombok o); cbn; intuition discriminate.
Qed.
Lemma fine_union f vs cls : fine (create_union dec_text m o f ord vs cls) -> union_good vs cls.
Proof.
  intros (s & e & H & Ne). unfold create_union in H. cbv zeta in H. apply rbind_Ok in H as ([[[ms e1] ns] bad] & HM & H).
  destruct bad; [apply ok_pair in H as [_ ->]; exfalso; apply Ne, in_or_app; right; apply in_or_app; right; now left|].
  apply members_back with (done := []) in HM as [M Hh]; [|apply holds_nil]. cbn [app] in Hh.
  apply rbind_Ok in H as ([args e2] & HA & H). apply rbind_Ok in H as ([mk e3] & HK & H).
  destruct (emit_pretty o) as [pt e4] eqn:Ep. apply rbind_Ok in H as ([inner e5] & HN & H). apply ok_pair in H as [_ ->]. rewrite !in_e in Ne. split.
  - intros v J. split.
    + match type of HK with pieces ?g _ = _ => assert (F : fine (pieces g vs)) by (exists mk, e3; tauto); destruct (fine_pieces _ _ F v J) as (s1 & e6 & K & _) end. cbv beta in K.
      apply rbind_Ok in K as (y & _ & K). apply rbind_Ok in K as (c1 & C & _). apply cap_big in C as [C _]. exact C.
    + apply (member_variant f), (M v (create_struct dec_text m o f ord (uv_spec v) (capitalize (uv_name v)) "    " [])). apply in_map_iff. exists v. auto.
  - intros s0 c L. assert (F : fine (emit_nested ord ns)) by (exists inner, e5; tauto).
    pose proof (fine_nested (fun f : variantdef => uv_name f) (fun f => uv_spec f) variant_slot (fun _ => eq_refl) (fun _ => eq_refl) f vs "    " ns Hh F s0 c L) as Fs.
    apply (fine_struct f (slot_spec s0) c "    " [] False); [cbn; intuition discriminate|exact Fs].
Qed.
Definition unit_good (ts : typespec) : Prop :=
  has_java sch (jo_instants o) (Some ts) (ts_value ts) true
  /\ exists u b, java_use sch (jo_instants o) (Some ts) (ts_unit ts) true u b /\ known sch (jtype_text u).
Lemma unit_fine ts cls : unit_good ts -> ev (fun f => fine (create_unit dec_text m o f ts cls)).
Proof.
  intros ((v & a & V) & u & b & U & [td K]). apply (use_named dec_text sch m Hm o) in V. apply (use_named dec_text sch m Hm o) in U. generalize (ev_and _ _ V U). apply ev_mono.
  intros f [(x & X & _) (y & Y & T & _)]. unfold create_unit. rewrite X, Y. cbn [rbind]. rewrite T. destruct (def_find sch m Hm _ _ K) as (t & F & _). rewrite F. cbv zeta.
  eexists _, _. split; [reflexivity|]. pose proof (name_no_error _ _ _ _ _ _ _ _ X). pose proof (name_no_error _ _ _ _ _ _ _ _ Y).
  intros [I|[I|I]]; [discriminate|discriminate|]. apply in_app_iff in I. tauto.
Qed.
Lemma fine_unit f ts cls : fine (create_unit dec_text m o f ts cls) -> unit_good ts.
Proof.
  intros (s & e & H & _). unfold create_unit in H. apply rbind_Ok in H as (vn & HV & H). apply rbind_Ok in H as (un & HU & H).
  apply (name_shows dec_text sch m Hm o) in HV as (v & a & UV & TV & _). apply (name_shows dec_text sch m Hm o) in HU as (u & b & UU & TU & _).
  rewrite TU, TV in H. destruct (find_type m (jtype_text u)) as [td|] eqn:F; [|discriminate]. split; [exists v, a; exact UV|]. exists u, b. split; [exact UU|].
  exists (td_spec td). exact (find_def sch m Hm _ _ F).
Qed.
Notation cgood := (class_good sch (jo_instants o) (jo_lombok o) (jo_immutable o)).
Lemma class_fine (P : Prop) ts n : P \/ ~ P -> cgood P ts n ->
  ev (fun f => forall exc, (str_mem n exc = true <-> P) -> exists p, class_piece dec_text m o f ord ts n exc = Some p /\ fine p).
Proof.
  intros D G. unfold class_piece. cbv zeta. destruct G as [(T & G)|[(T & G)|[T|(T & G)]]]; rewrite T.
  - generalize (struct_fine ts n P D G). apply ev_mono. intros f H exc E. eexists. split; [reflexivity|]. exact (H "" exc E).
  - generalize (union_fine (ts_variants ts) n G). apply ev_mono. intros f H exc E. eexists. split; [reflexivity|]. exact H.
  - apply ev_now. intros f exc E. eexists. split; [reflexivity|]. eexists _, _. split; [reflexivity|]. cbn. intuition discriminate.
  - generalize (unit_fine ts n G). apply ev_mono. intros f H exc E. eexists. split; [reflexivity|]. exact H.
Qed.
Lemma fine_class f (P : Prop) ts n exc p : (str_mem n exc = true <-> P) -> class_piece dec_text m o f ord ts n exc = Some p -> fine p -> cgood P ts n.
Proof.
  intros E H F. unfold class_piece in H. cbv zeta in H. unfold class_good.
  destruct (_ =?s "Struct") eqn:E1; [apply seqb_eq in E1; injection H as <-; left; split; [exact E1|]; exact (fine_struct _ _ _ _ _ _ E F)|].
  destruct (_ =?s "UnitValue") eqn:E2; [apply seqb_eq in E2; injection H as <-; right; right; right; split; [exact E2|]; exact (fine_unit _ _ _ F)|].
  destruct (_ =?s "Enum") eqn:E3; [apply seqb_eq in E3; auto|].
  destruct (_ =?s "Union") eqn:E4; [|discriminate]. apply seqb_eq in E4. injection H as <-. right. left. split; [exact E4|]. exact (fine_union _ _ _ F).
Qed.

(** ** The files *)
Definition sound (r : result unit jstate) : Prop := exists st, r = Ok st /\ js_err st = false.
Lemma happens_no_error st es : js_err st = false -> ~ In JError es -> js_err (happens st es) = false.
Proof. intros E N. destruct (js_err (happens st es)) eqn:K; [|reflexivity]. apply (proj1 (proj1 (proj2 (happens_spec es st)))) in K as [K|K]; [congruence|contradiction]. Qed.
Lemma pojo_fine f ts n c exc st : js_err st = false -> (forall p, class_piece dec_text m o f ord ts n exc = Some p -> fine p) -> sound (create_pojo dec_text m o f ord ts n c exc st).
Proof.
  intros E H. unfold create_pojo. rewrite E. destruct (class_piece dec_text m o f ord ts n exc) as [p|]; [|exists st; auto].
  destruct (H p eq_refl) as (s & e & -> & N). cbn [rbind]. cbv zeta. rewrite (happens_no_error _ _ E N).
  eexists. split; [reflexivity|]. pose proof (happens_no_error _ _ E N) as E1. unfold write_java. destruct (js_imports (happens st e)); cbn [sort_imports js_err]; rewrite E1; reflexivity.
Qed.
Lemma fine_pojo f ts n c exc st st' : create_pojo dec_text m o f ord ts n c exc st = Ok st' -> js_err st' = false -> forall p, class_piece dec_text m o f ord ts n exc = Some p -> fine p.
Proof.
  intros H E p K. destruct (pojo_spec _ _ _ _ _ _ _ _ _ _ _ H E) as [E0 [(W & _)|P]].
  - apply (class_piece_none dec_text m o f ord ts n exc) in W. congruence.
  - destruct P as (_ & s & es & C & G & _). rewrite K in C. injection C as ->. destruct (goes_err _ _ _ _ G E). exists s, es. auto.
Qed.
Lemma named_action h a c : method_named h a c -> action_name h = Ok a /\ go_capitalize a = Ok c.
Proof.
  intros (A & Na & C). split; [|rewrite (big_cap _ Na); f_equal; symmetry; apply big_large, C].
  unfold action_name. destruct A as [[A1 A2]|[A1 (t & S & ->)]].
  - apply small_first_iff in A2. destruct (h_name h) as [|x r]; [congruence|]. rewrite <- A2. reflexivity.
  - rewrite A1. assert (I : exists n t', action_info h = Ok (n, t')).
    { unfold action_info. destruct (str_mem (h_method h) ["POST"; "PUT"]) eqn:E; [destruct (find _ _); eexists _, _; reflexivity|].
      destruct S as [[M _]|(_ & x & X & _)]; [apply str_mem_In in M; congruence|]. rewrite X. destruct (find _ _); eexists _, _; reflexivity. }
    destruct I as (n & t' & I). rewrite I. cbn [rbind]. rewrite (subject_fun _ _ _ S (info_subject _ _ _ I)). reflexivity.
Qed.
Lemma exceptions_fine f xs : forall st, js_err st = false -> (forall x, In x xs -> exists y, type_name dec_text m o f None (xc_type x) true = Ok y) ->
  exists l st', exception_types dec_text m o f xs st = Ok (l, st') /\ js_err st' = false.
Proof.
  induction xs as [|x xs IH]; intros st E H; [exists [], st; auto|]. cbn [exception_types]. destruct (H x (or_introl eq_refl)) as [y Hy]. rewrite Hy. cbn [rbind].
  destruct (IH (happens st (jn_events y)) (happens_no_error _ _ E (name_no_error _ _ _ _ _ _ _ _ Hy)) (fun z I => H z (or_intror I))) as (l & st' & -> & E'). cbn [rbind]. eauto.
Qed.
Definition exceptions_of (f : nat) (st : jstate) : result unit (list string * jstate) :=
  if jo_service_exception o then Ok ([], st) else exception_types dec_text m o f (flat_map h_exceptions (sc_http sch)) st.
Lemma exceptions_thrown f st exc st' : exceptions_of f st = Ok (exc, st') -> forall n, str_mem n exc = true <-> is_thrown (jo_instants o) (jo_service_exception o) sch n.
Proof.
  intros H n. unfold is_thrown. unfold exceptions_of in H. destruct (jo_service_exception o).
  - injection H as <- <-. split; [discriminate|]. intros [K _]. discriminate.
  - apply (exceptions_spec dec_text sch m Hm o) in H as (_ & _ & _ & D). rewrite str_mem_In, D. split.
    + intros (x & t & a & I & J). apply in_flat_map in I as (h & Ih & Ix). split; [reflexivity|]. eauto 8.
    + intros (_ & h & x & t & a & Ih & Ix & J). exists x, t, a. split; [apply in_flat_map; eauto|exact J].
Qed.
Definition thrown_good : Prop :=
  jo_service_exception o = false -> forall h x, In h (sc_http sch) -> In x (h_exceptions h) -> has_java sch (jo_instants o) None (xc_type x) true.
Lemma thrown_fine : thrown_good -> ev (fun f => exists exc st, exceptions_of f start = Ok (exc, st) /\ js_err st = false).
Proof.
  intros G. unfold exceptions_of. unfold thrown_good in G. destruct (jo_service_exception o); [apply ev_now; intros f; exists [], start; auto|].
  assert (E : ev (fun f => forall x, In x (flat_map h_exceptions (sc_http sch)) -> exists y, type_name dec_text m o f None (xc_type x) true = Ok y)).
  { apply ev_all. intros x I. apply in_flat_map in I as (h & Ih & Ix). destruct (G eq_refl h x Ih Ix) as (t & a & U). apply (use_named dec_text sch m Hm o) in U. revert U. apply ev_mono.
    intros f (y & Y & _). exists y. exact Y. }
  revert E. apply ev_mono. intros f E. destruct (exceptions_fine f (flat_map h_exceptions (sc_http sch)) start eq_refl E) as (l & st' & H & K). eauto.
Qed.
Lemma through_fine {A} (g : A -> jstate -> result unit jstate) l : (forall x, In x l -> forall st, js_err st = false -> sound (g x st)) ->
  forall st, js_err st = false -> sound (through g l st).
Proof.
  induction l as [|x l IH]; intros H st E; [exists st; auto|]. cbn [through]. destruct (H x (or_introl eq_refl) st E) as (st' & -> & E'). cbn [rbind].
  exact (IH (fun y I => H y (or_intror I)) st' E').
Qed.
Lemma sigs_fine hs : (forall h, In h hs -> exists a c, method_named h a c) -> exists s, handler_sigs hs = Ok s.
Proof.
  induction hs as [|h hs IH]; intros H; [exists ""; reflexivity|]. cbn [handler_sigs]. destruct (H h (or_introl eq_refl)) as (a & c & M). apply named_action in M as [A C].
  unfold handler_sig, request_type, response_type. rewrite A. cbn [rbind]. rewrite C. cbn [rbind]. destruct (IH (fun x I => H x (or_intror I))) as [s ->]. cbn [rbind]. eauto.
Qed.
Notation agood := (action_good sch (jo_instants o) (jo_lombok o) (jo_immutable o)).
Lemma some_inj {A} (a b : A) : Some a = Some b -> b = a.
Proof. congruence. Qed.
Lemma params_fine (fs : list fielddef) n : fgood fs n False -> ev (fun f => forall st, js_err st = false -> sound (create_pojo dec_text m o f ord (struct_of fs) n "" [] st)).
Proof.
  intros G. generalize (struct_fine (struct_of fs) n False (or_intror (fun f => f)) G). apply ev_mono. intros f H st E. apply pojo_fine; [exact E|].
  intros p K. apply (some_inj (create_struct dec_text m o f ord (struct_of fs) n "" [])) in K. rewrite K. apply H. cbn. intuition discriminate.
Qed.
Lemma action_fine h : agood h -> ev (fun f => forall st, js_err st = false -> sound (create_action dec_text m o f ord h st)).
Proof.
  intros (a & c & x & M & X & G1 & G2 & G3). apply named_action in M as [A C].
  assert (V : ev (fun f => exists n t e, entity_type dec_text m o f h = Ok (n, t, e) /\ ~ In JError e)).
  { unfold entity_type. rewrite X. pose proof (find_first (fun p => ps_header p =?s "") plain_output (xp_outputs x) plain_iff) as Fi. destruct (find _ (xp_outputs x)) as [p|].
    - destruct (G3 p Fi) as (t & an & U). apply (use_named dec_text sch m Hm o) in U. revert U. apply ev_mono. intros f (y & Y & _). unfold param_type in Y. rewrite Y. cbn [rbind]. eexists _, _, _. split; [reflexivity|].
      exact (name_no_error _ _ _ _ _ _ _ _ Y).
    - apply ev_now. intros f. eexists _, _, _. split; [reflexivity|]. intros []. }
  generalize (ev_and _ _ V (ev_and _ _ (params_fine _ _ G1) (params_fine _ _ G2))). apply ev_mono. intros f ((n & t & e & V' & Ne) & P1 & P2) st E.
  unfold create_action, create_request, create_response, request_type, response_type. rewrite E, A. cbn [rbind]. rewrite C. cbn [rbind].
  destruct (P1 st E) as (s1 & -> & E1). cbn [rbind]. rewrite E1, X. destruct (P2 s1 E1) as (s2 & -> & E2). cbn [rbind]. rewrite V'. cbn [rbind]. cbv zeta.
  eexists. split; [reflexivity|]. pose proof (happens_no_error _ _ E2 Ne) as E3. destruct (t =?s "String"); exact E3.
Qed.
Notation jgood := (java_good sch (jo_instants o) (jo_lombok o) (jo_immutable o) (jo_service_exception o) (jo_name o)).
Lemma write_sound name s pkg st : js_err st = false -> js_err (write_java o name s pkg st) = false.
Proof. intros E. unfold write_java. rewrite E. reflexivity. Qed.
Theorem model_fine : jgood -> ev (fun f => sound (create_model dec_text m o f ord start)).
Proof.
  intros (G1 & G2 & G3). pose proof (thrown_fine G1) as X.
  assert (D : forall n, is_thrown (jo_instants o) (jo_service_exception o) sch n \/ ~ is_thrown (jo_instants o) (jo_service_exception o) sch n).
  { destruct X as [f0 X]. destruct (X f0 (le_n _)) as (exc & st & H & _). intros n. rewrite <- (exceptions_thrown _ _ _ _ H n). destruct (str_mem n exc); auto. }
  assert (T : ev (fun f => forall td, In td (sc_types sch) -> forall exc, (forall n, str_mem n exc = true <-> is_thrown (jo_instants o) (jo_service_exception o) sch n) ->
                  forall st, js_err st = false -> sound (create_pojo_from_def dec_text m o f ord exc td st))).
  { apply ev_all. intros td I. destruct (G2 td I) as [Nn Gc]. unfold create_pojo_from_def. rewrite (big_cap _ Nn). cbn [rbind]. set (n := big_first (td_name td)) in *.
    destruct (in_dec string_dec (ts_type (td_spec td)) ["Struct"; "UnitValue"; "Enum"; "Union"]) as [W|W].
    - generalize (class_fine _ _ n (D n) (Gc W n (proj2 (big_large _ _) eq_refl))). apply ev_mono. intros f H exc He st E. apply pojo_fine; [exact E|].
      destruct (H exc (He n)) as (p & K & F). intros q Q. congruence.
    - apply ev_now. intros f exc He st E. apply pojo_fine; [exact E|]. apply (class_piece_none dec_text m o f ord (td_spec td) n exc) in W. rewrite W. discriminate. }
  assert (A : ev (fun f => jo_name o <> "" -> forall h, In h (sc_http sch) -> forall st, js_err st = false -> sound (create_action dec_text m o f ord h st))).
  { destruct (string_dec (jo_name o) "") as [Z|Z]; [apply ev_now; intros f K; contradiction|]. 
    generalize (ev_all (fun h f => forall st, js_err st = false -> sound (create_action dec_text m o f ord h st)) (sc_http sch) (fun h I => action_fine h (G3 Z h I))). apply ev_mono. auto. }
  generalize (ev_and _ _ X (ev_and _ _ T A)). apply ev_mono. clear X T A. intros f ((exc & s0 & H0 & E0) & T & A).
  unfold create_model. cbv zeta. rewrite (model_schema sch m Hm). change (sound ('(exceptions, st0) <- exceptions_of f start;; st1 <- through (create_pojo_from_def dec_text m o f ord exceptions) (sc_types sch) st0;;
     st2 <- create_interface dec_text m o f ord st1 ;;
     let st3 := if js_timestamp st2 then write_java o "Timestamp" timestamp_text (jo_package o) st2 else if js_instant st2 then happen st2 JUtil else st2 in
     let st4 := if js_util st3 then write_java o "Util" util_text (jo_model_package o) st3 else st3 in
     if jo_service_exception o then from_template o "ServiceException" (Ok exception_text) (jo_model_package o) st4 else Ok st4)).
  rewrite H0. rewrite rbind_now. cbv beta iota.
  destruct (through_fine (create_pojo_from_def dec_text m o f ord exc) (sc_types sch) (fun td I => T td I exc (exceptions_thrown _ _ _ _ H0)) s0 E0) as (s1 & -> & E1). rewrite rbind_now.
  assert (Si : sound (create_interface dec_text m o f ord s1)).
  { unfold create_interface. rewrite E1. destruct (jo_name o =?s "") eqn:En; [exists s1; auto|]. apply seqb_neq in En. cbv zeta. rewrite (model_schema sch m Hm).
    destruct (sigs_fine (sc_http sch)) as [sg ->]; [intros h I; destruct (G3 En h I) as (a & c & x & M & _); eauto|]. cbn [rbind]. unfold from_template. rewrite E1. cbn [rbind].
    apply through_fine; [exact (A En)|]. apply write_sound, E1. }
  destruct Si as (s2 & -> & E2). rewrite rbind_now. cbv beta zeta.
  set (s3 := if js_timestamp s2 then write_java o "Timestamp" timestamp_text (jo_package o) s2 else if js_instant s2 then happen s2 JUtil else s2).
  assert (E3 : js_err s3 = false) by (subst s3; destruct (js_timestamp s2); [apply write_sound, E2|destruct (js_instant s2); exact E2]). clearbody s3.
  set (s4 := if js_util s3 then write_java o "Util" util_text (jo_model_package o) s3 else s3).
  assert (E4 : js_err s4 = false) by (subst s4; destruct (js_util s3); [apply write_sound, E3|exact E3]). clearbody s4.
  destruct (jo_service_exception o); [|exists s4; auto]. unfold from_template. rewrite E4. eexists. split; [reflexivity|]. apply write_sound, E4.
Qed.
Lemma err_stays_types f exc l : forall st st', through (create_pojo_from_def dec_text m o f ord exc) l st = Ok st' -> js_err st = true -> js_err st' = true.
Proof.
  induction l as [|td l IH]; intros st st' H E; cbn [through] in H; [injection H as <-; exact E|]. apply rbind_Ok in H as (st1 & H1 & H).
  unfold create_pojo_from_def in H1. apply rbind_Ok in H1 as (cls & C & H1). unfold create_pojo in H1. rewrite E in H1. injection H1 as <-. exact (IH _ _ H E).
Qed.
Lemma fine_types f exc l : forall st st', through (create_pojo_from_def dec_text m o f ord exc) l st = Ok st' -> js_err st' = false ->
  forall td, In td l -> td_name td <> "" /\ forall p, class_piece dec_text m o f ord (td_spec td) (big_first (td_name td)) exc = Some p -> fine p.
Proof.
  induction l as [|t l IH]; intros st st' H E td I; [destruct I|]. cbn [through] in H. apply rbind_Ok in H as (st1 & H1 & H). destruct I as [<- |I]; [|exact (IH _ _ H E td I)].
  unfold create_pojo_from_def in H1. apply rbind_Ok in H1 as (cls & C & H1). apply cap_big in C as [Nn ->]. split; [exact Nn|].
  assert (E1 : js_err st1 = false) by (destruct (js_err st1) eqn:E1; [|reflexivity]; rewrite (err_stays_types _ _ _ _ _ H E1) in E; discriminate).
  exact (fine_pojo _ _ _ _ _ _ _ H1 E1).
Qed.
Lemma fine_action f h st st' : create_action dec_text m o f ord h st = Ok st' -> js_err st' = false -> agood h.
Proof.
  intros H E. unfold create_action in H. apply rbind_Ok in H as (s1 & H1 & H). apply rbind_Ok in H as (s2 & H2 & H). apply rbind_Ok in H as ([[n t] e] & H3 & H).
  assert (E2 : js_err s2 = false).
  { assert (H' : st' = if t =?s "String" then happen (happens s2 e) JUtil else happens s2 e) by congruence.
    assert (E3 : js_err (happens s2 e) = false) by (rewrite H' in E; destruct (t =?s "String"); exact E). exact (proj1 (goes_err _ _ _ _ (goes_happens s2 e) E3)). }
  clear H. assert (E1 : js_err s1 = false) by (destruct (js_err s1) eqn:E1; [|reflexivity]; unfold create_response in H2; rewrite E1 in H2; congruence).
  assert (E0 : js_err st = false) by (destruct (js_err st) eqn:E0; [|reflexivity]; unfold create_request in H1; rewrite E0 in H1; congruence).
  unfold create_request in H1. rewrite E0 in H1. apply rbind_Ok in H1 as (a & A & H1). apply rbind_Ok in H1 as (q & Q & H1). unfold request_type in Q. apply rbind_Ok in Q as (c & C & Q). injection Q as <-.
  unfold create_response in H2. rewrite E1, A in H2. cbn [rbind] in H2. apply rbind_Ok in H2 as (q & Q & H2). unfold response_type in Q. rewrite C in Q. injection Q as <-.
  destruct (h_expected h) as [x|] eqn:X; [|discriminate]. exists a, c, x. split; [exact (action_named _ _ _ A C)|]. split; [exact X|].
  split; [apply (fine_struct f (struct_of (map ps_field (h_inputs h))) _ "" [] False); [cbn; intuition discriminate|]; exact (fine_pojo _ _ _ _ _ _ _ H1 E1 _ eq_refl)|].
  split; [apply (fine_struct f (struct_of (map ps_field (xp_outputs x))) _ "" [] False); [cbn; intuition discriminate|]; exact (fine_pojo _ _ _ _ _ _ _ H2 E2 _ eq_refl)|].
  intros p Fp. unfold entity_type in H3. rewrite X in H3. pose proof (find_first (fun p => ps_header p =?s "") plain_output (xp_outputs x) plain_iff) as Fi.
  destruct (find _ (xp_outputs x)) as [p'|].
  - rewrite (first_fun _ _ _ _ _ Fp Fi). apply rbind_Ok in H3 as (y & H3 & _). apply (name_shows dec_text sch m Hm o) in H3 as (t0 & a0 & U & _). exists t0, a0. exact U.
  - destruct Fp as (P & u & v & Eq & _). destruct (Fi p); [rewrite Eq; apply in_elt|exact P].
Qed.
Lemma fine_actions f hs : forall st st', through (create_action dec_text m o f ord) hs st = Ok st' -> js_err st' = false -> forall h, In h hs -> agood h.
Proof.
  induction hs as [|g hs IH]; intros st st' H E h I; [destruct I|]. cbn [through] in H. apply rbind_Ok in H as (s1 & H1 & H). destruct I as [<- |I]; [|exact (IH _ _ H E h I)].
  assert (E1 : js_err s1 = false) by (destruct (js_err s1) eqn:E1; [|reflexivity]; rewrite (err_stays_actions _ _ _ _ _ _ _ _ H E1) in E; discriminate).
  exact (fine_action _ _ _ _ H1 E1).
Qed.
Theorem fine_model f : sound (create_model dec_text m o f ord start) -> jgood.
Proof.
  intros (st & H & E). unfold create_model in H. cbv zeta in H. rewrite (model_schema sch m Hm) in H.
  apply rbind_Ok in H as ([exc s0] & H0 & H). apply rbind_Ok in H as (s1 & H1 & H). apply rbind_Ok in H as (s2 & H2 & H).
  assert (E2 : js_err s2 = false).
  { set (s3 := if js_timestamp s2 then write_java o "Timestamp" timestamp_text (jo_package o) s2 else if js_instant s2 then happen s2 JUtil else s2) in H.
    set (s4 := if js_util s3 then write_java o "Util" util_text (jo_model_package o) s3 else s3) in H.
    assert (E4 : js_err s4 = false).
    { destruct (jo_service_exception o); [|injection H as <-; exact E]. unfold from_template in H. destruct (js_err s4) eqn:E4; [injection H as <-; congruence|reflexivity]. }
    assert (E3 : js_err s3 = false).
    { destruct (js_err s3) eqn:E3; [|reflexivity]. subst s4. destruct (js_util s3); [unfold write_java in E4; rewrite E3 in E4; congruence|congruence]. }
    destruct (js_err s2) eqn:E2; [|reflexivity]. subst s3. destruct (js_timestamp s2); [unfold write_java in E3; rewrite E2 in E3; congruence|].
    destruct (js_instant s2); cbn in E3; congruence. }
  assert (E1 : js_err s1 = false) by (destruct (js_err s1) eqn:E1; [|reflexivity]; unfold create_interface in H2; rewrite E1 in H2; congruence).
  clear H. change (exceptions_of f start = Ok (exc, s0)) in H0. pose proof (exceptions_thrown _ _ _ _ H0) as Th. split; [|split].
  - intros Es h x Ih Ix. unfold exceptions_of in H0. rewrite Es in H0. apply (exceptions_spec dec_text sch m Hm o) in H0 as (_ & _ & C & _). apply C, in_flat_map. eauto.
  - intros td I. destruct (fine_types _ _ _ _ _ H1 E1 td I) as [Nn F]. split; [exact Nn|]. intros W n L. apply big_large in L as ->.
    destruct (class_piece dec_text m o f ord (td_spec td) (big_first (td_name td)) exc) as [p|] eqn:K.
    + exact (fine_class f _ _ _ exc p (Th _) K (F p eq_refl)).
    + apply class_piece_none in K. contradiction.
  - intros Nn h I. unfold create_interface in H2. rewrite E1 in H2. apply seqb_neq in Nn. rewrite Nn in H2. cbv zeta in H2. rewrite (model_schema sch m Hm) in H2.
    apply rbind_Ok in H2 as (s3 & _ & H2). exact (fine_actions _ _ _ _ H2 E2 h I).
Qed.
End GOOD.
