(** The names in the generated Java classes. *)
From Verif Require Import GoStr Outcome Value Schema Scalars Model Misc Generator Golang GoModel GoServer OpenApi Java JavaModel
  SpecTime SpecMisc SpecModel SpecPV SpecTrace SpecGo SpecGen SpecJava SpecJavaNames ModelFacts PVFacts TraceFacts GenFacts GoModelFacts GoText JavaFacts JavaText JavaAsks JavaFiles.
From Coq Require Import Lia Permutation.

Section NAMES.
Context (sch : schema) (inst : bool) (HT : types_usable sch).
Notation use := (java_use sch inst).
Notation asks := (use_asks sch inst).
(** where a name comes from *)
Definition origin (Q : request -> Prop) (x : string) : Prop :=
  In x java_lang \/ (exists p, Q (Wants (p +++ "." +++ x))) \/ x = "Util" /\ Q Helper \/ x = "Timestamp" /\ Q Stamp
  \/ (exists td, In td (sc_types sch) /\ td_name td = x /\ with_class (td_spec td)).
Lemma origin_mono (Q R : request -> Prop) x : (forall q, Q q -> R q) -> origin Q x -> origin R x.
Proof. intros H [J|[(p & J)|[[E J]|[[E J]|J]]]]; unfold origin; eauto 8. Qed.
Lemma or_mono (Q R : request -> Prop) x (N : Prop) : (forall q, Q q -> R q) -> N \/ origin Q x -> N \/ origin R x.
Proof. intros H [J|J]; [auto|right; exact (origin_mono _ _ _ H J)]. Qed.
Lemma from_import (Q : request -> Prop) p x : Q (Wants (p +++ "." +++ x)) -> In x never_imported \/ origin Q x.
Proof. intros H. right. right. left. exists p. exact H. Qed.
Lemma from_lang (Q : request -> Prop) x : In x java_lang -> In x never_imported \/ origin Q x.
Proof. intros H. right. now left. Qed.
Lemma from_helper (Q : request -> Prop) : Q Helper -> In "Util" never_imported \/ origin Q "Util".
Proof. intros H. right. right. right. left. auto. Qed.
Lemma must_names ts n r x : ~ In n (map (fun x => fst (fst x)) primitives) -> In x (flat_map anno_names (must r)) -> In x never_imported \/ origin (asks ts n r) x.
Proof. intros Np I. destruct r; [|destruct I]. destruct I as [<- |[]]. apply (from_import _ "javax.validation.constraints"). now apply ua_must. Qed.
Lemma bounds_names ts Q x : In x (flat_map anno_names (bounds ts)) -> In x never_imported \/ origin Q x.
Proof. unfold bounds. intros I. left. destruct (ts_min ts), (ts_max ts); cbn in I |- *; intuition. Qed.
Lemma dec_bounds_names ts Q x : In x (flat_map anno_names (dec_bounds ts)) -> In x never_imported \/ origin Q x.
Proof. unfold dec_bounds. intros I. left. destruct (ts_min ts), (ts_max ts); cbn in I |- *; intuition. Qed.
Lemma spec_names f ts (Q : request -> Prop) x : (forall s, ts = Some s -> In x (flat_map anno_names (f s)) -> In x never_imported \/ origin Q x) ->
  In x (flat_map anno_names (of_spec f ts)) -> In x never_imported \/ origin Q x.
Proof. intros H I. destruct ts as [s|]; [exact (H s eq_refl I)|destruct I]. Qed.
Lemma special_np n : In n (boxes ++ special_names) -> ~ In n (map (fun x => fst (fst x)) primitives).
Proof. exact (special_plain n). Qed.
Lemma stamp_names (Q : request -> Prop) x : (forall q, stamp_asks inst q -> Q q) -> In x (type_names (stamp_type inst)) -> In x never_imported \/ origin Q x.
Proof.
  intros H I. unfold stamp_type, stamp_asks in *. destruct inst; destruct I as [<- |[]].
  - apply (from_import _ "java.time"). apply H. now left.
  - right. right. right. right. left. auto.
Qed.
Lemma stamp_annos (Q : request -> Prop) x (l : list janno) : (forall q, stamp_asks inst q -> Q q) -> (forall a, In a l -> a = Reads \/ a = Writes) ->
  In x (flat_map anno_names (if inst then l else [])) -> In x never_imported \/ origin Q x.
Proof.
  intros H L I. unfold stamp_asks in H. destruct inst; [|destruct I]. apply in_flat_map in I as (a & Ia & I).
  destruct (L a Ia) as [-> | ->]; destruct I as [<- |[<- |[]]].
  - apply (from_import _ "com.fasterxml.jackson.databind.annotation"). apply H. unfold databind. cbn. tauto.
  - apply from_helper, H. cbn. tauto.
  - apply (from_import _ "com.fasterxml.jackson.databind.annotation"). apply H. unfold databind. cbn. tauto.
  - apply from_helper, H. cbn. tauto.
Qed.
Lemma usable_builtin n : In n builtin_names -> ~ In n ["Bytes"; "Struct"; "Enum"; "Union"; "UnitValue"] -> usable sch n.
Proof. intros I N. split; [|exact N]. exists (ts_of n). exists (mkTD n "" [] (ts_of n)). split; [left; auto|reflexivity]. Qed.
Lemma parts_plain s n : ~ container n -> parts_usable sch s n.
Proof. intros N. split; intros ->; exfalso; apply N; [left|right]; reflexivity. Qed.
Definition fit (ts : option typespec) (n : string) : Prop := (usable sch n \/ n = "Boolean") /\ forall s, ts = Some s -> parts_usable sch s n.
Lemma fit_plain ts n : usable sch n \/ n = "Boolean" -> ~ container n -> fit ts n.
Proof. intros U N. split; [exact U|]. intros s _. now apply parts_plain. Qed.
Lemma builtin_spec n td : declares sch n td -> In td (sc_types sch) /\ td_name td = n \/ In n builtin_names /\ ts_type (td_spec td) = n.
Proof. intros [[I ->]|H]; [right; auto|now left]. Qed.

Lemma use_names ts n r t a : use ts n r t a -> fit ts n -> forall x, In x (type_names t ++ flat_map anno_names a) -> In x never_imported \/ origin (asks ts n r) x.
Proof.
  induction 1 as [ts n p b I|ts n p b I Nb|ts t a U IH|ts n r I|ts r|ts r|ts r|r|ts ti t a r D U IH|r|ts tk k a ti t b r Dk Uk IHk Di Ui IHi|ts r|ts r|ts n r O Nd
                |ts n td r t a O D K U IH|ts n td r t a O D K U IH|ts n td r t a O D K U IH|ts n td r O D K|ts n td r O D K|ts n td r O D K|ts n td r O D Nn Ns];
    intros [Un Pa] x J; apply in_app_or in J as [J|J].
  - apply from_lang. destruct J as [<- |[]]. cbn in I |- *. repeat (destruct I as [I|I]; [injection I as _ <- _; tauto|]). destruct I.
  - destruct J.
  - apply from_lang. destruct J as [<- |[]]. cbn in I |- *. repeat (destruct I as [I|I]; [injection I as _ _ <-; tauto|]). destruct I.
  - apply (spec_names bounds ts); [intros s _; apply bounds_names|exact J].
  - refine (or_mono _ _ _ _ _ (IH _ x (in_or_app _ _ _ (or_introl J)))); [intros q; apply ua_bool|]. apply fit_plain; [now right|]. intros [E|E]; discriminate.
  - refine (or_mono _ _ _ _ _ (IH _ x (in_or_app _ _ _ (or_intror J)))); [intros q; apply ua_bool|]. apply fit_plain; [now right|]. intros [E|E]; discriminate.
  - apply from_lang. destruct J as [<- |[]]. cbn in I |- *. intuition.
  - rewrite flat_map_app in J. apply in_app_or in J as [J|J]; [revert J; apply must_names, special_np, in_or_app; now left|].
    apply (spec_names bounds ts); [intros s _; apply bounds_names|exact J].
  - apply from_lang. destruct J as [<- |[]]. cbn. tauto.
  - rewrite flat_map_app in J. apply in_app_or in J as [J|J]; [revert J; apply must_names, special_np; cbn; tauto|].
    apply (spec_names string_limits ts); [|exact J]. intros s -> I. unfold string_limits in I. rewrite flat_map_app in I. apply in_app_or in I as [I|I].
    + destruct (string_dec (ts_pattern s) "") as [E|E]; [destruct I|]. destruct I as [<- |[]]. apply (from_import _ "javax.validation.constraints"). now apply ua_pattern.
    + assert (S : x = "Size" /\ (ts_minsize s <> None \/ ts_maxsize s <> None)) by (destruct (ts_minsize s), (ts_maxsize s); cbn in I; intuition congruence).
      destruct S as [-> S]. apply (from_import _ "javax.validation.constraints"). now apply ua_size.
  - destruct J as [<- |[]]. apply (from_import _ "java.math"). apply ua_decimal.
  - rewrite flat_map_app in J. apply in_app_or in J as [J|J]; [revert J; apply must_names, special_np; cbn; tauto|].
    apply (spec_names dec_bounds ts); [intros s _; apply dec_bounds_names|exact J].
  - revert J. apply stamp_names. intros q. apply ua_timestamp.
  - rewrite flat_map_app in J. apply in_app_or in J as [J|J]; [revert J; apply must_names, special_np; cbn; tauto|].
    revert J. apply stamp_annos; [intros q; apply ua_timestamp|]. intros a [<- |[]]. auto.
  - destruct J as [<- |[]]. apply (from_import _ "java.util"). apply ua_list.
  - revert J; apply must_names, special_np; cbn; tauto.
  - destruct J as [<- |J]; [apply (from_import _ "java.util"); apply ua_list|].
    destruct (proj1 (Pa ts eq_refl) eq_refl) as [Ui Nc].
    refine (or_mono _ _ _ _ _ (IH (fit_plain _ _ (or_introl Ui) Nc) x (in_or_app _ _ _ (or_introl J)))). intros q A. eapply ua_items; eassumption.
  - revert J; apply must_names, special_np; cbn; tauto.
  - destruct J as [<- |[]]. apply (from_import _ "java.util"). apply ua_map.
  - revert J; apply must_names, special_np; cbn; tauto.
  - destruct (proj2 (Pa ts eq_refl) eq_refl) as [[Uk' Nk] [Ui' Ni]].
    destruct J as [<- |J]; [apply (from_import _ "java.util"); apply ua_map|]. apply in_app_or in J as [J|J].
    + refine (or_mono _ _ _ _ _ (IHk (fit_plain _ _ (or_introl Uk') Nk) x (in_or_app _ _ _ (or_introl J)))). intros q A. eapply ua_keys; eassumption.
    + refine (or_mono _ _ _ _ _ (IHi (fit_plain _ _ (or_introl Ui') Ni) x (in_or_app _ _ _ (or_introl J)))). intros q A. eapply ua_values; eassumption.
  - revert J; apply must_names, special_np; cbn; tauto.
  - destruct J as [<- |[]]. apply (from_import _ "java.util"). apply ua_uuid.
  - revert J; apply must_names, special_np; cbn; tauto.
  - apply from_lang. destruct J as [<- |[]]. cbn. tauto.
  - revert J; apply must_names, special_np; cbn; tauto.
  - destruct J as [<- |[]]. destruct Un as [[(td & D) _]| ->]; [destruct (Nd td D)|]. apply from_lang. cbn. tauto.
  - revert J. apply must_names, O.
  - refine (or_mono _ _ _ _ _ (IH _ x (in_or_app _ _ _ (or_introl J)))).
    + intros q A. apply (ua_behind sch inst ts n td r r q O D); [left; split; [right; exact K|reflexivity]|exact A].
    + apply fit_plain; [|intros [E|E]; rewrite E in K; cbn in K; intuition discriminate]. cbn in K.
      destruct K as [K|[K|[K|[K|[K|[K|[K|[]]]]]]]]; rewrite <- K; try (now right); left; apply usable_builtin; cbn; intuition discriminate.
  - refine (or_mono _ _ _ _ _ (IH _ x (in_or_app _ _ _ (or_intror J)))).
    + intros q A. apply (ua_behind sch inst ts n td r r q O D); [left; split; [right; exact K|reflexivity]|exact A].
    + apply fit_plain; [|intros [E|E]; rewrite E in K; cbn in K; intuition discriminate]. cbn in K.
      destruct K as [K|[K|[K|[K|[K|[K|[K|[]]]]]]]]; rewrite <- K; try (now right); left; apply usable_builtin; cbn; intuition discriminate.
  - refine (or_mono _ _ _ _ _ (IH _ x (in_or_app _ _ _ (or_introl J)))).
    + intros q A. apply (ua_behind sch inst ts n td r r q O D); [left; split; [left; symmetry; exact K|reflexivity]|rewrite K; exact A].
    + apply fit_plain; [left; apply usable_builtin; cbn; intuition discriminate|intros [E|E]; discriminate].
  - refine (or_mono _ _ _ _ _ (IH _ x (in_or_app _ _ _ (or_intror J)))).
    + intros q A. apply (ua_behind sch inst ts n td r r q O D); [left; split; [left; symmetry; exact K|reflexivity]|rewrite K; exact A].
    + apply fit_plain; [left; apply usable_builtin; cbn; intuition discriminate|intros [E|E]; discriminate].
  - refine (or_mono _ _ _ _ _ (IH _ x (in_or_app _ _ _ (or_introl J)))).
    + intros q A. apply (ua_behind sch inst ts n td r false q O D); [right; split; [destruct K as [-> | ->]; cbn; tauto|reflexivity]|exact A].
    + destruct D as (td' & D & <-). destruct (builtin_spec _ _ D) as [[I En]|[I En]].
      * split; [left; destruct K as [-> | ->]; apply usable_builtin; cbn; intuition discriminate|]. intros s Es. injection Es as <-. exact (proj1 (proj2 (proj2 (HT td' I)))).
      * exfalso. rewrite En in K. destruct O as (_ & _ & O). apply O. destruct K as [-> | ->]; cbn; tauto.
  - refine (or_mono _ _ _ _ _ (IH _ x (in_or_app _ _ _ (or_intror J)))).
    + intros q A. apply (ua_behind sch inst ts n td r false q O D); [right; split; [destruct K as [-> | ->]; cbn; tauto|reflexivity]|exact A].
    + destruct D as (td' & D & <-). destruct (builtin_spec _ _ D) as [[I En]|[I En]].
      * split; [left; destruct K as [-> | ->]; apply usable_builtin; cbn; intuition discriminate|]. intros s Es. injection Es as <-. exact (proj1 (proj2 (proj2 (HT td' I)))).
      * exfalso. rewrite En in K. destruct O as (_ & _ & O). apply O. destruct K as [-> | ->]; cbn; tauto.
  - destruct J as [<- |[]]. apply (from_import _ "java.util"). apply (ua_behind sch inst ts n td r false _ O D); [right; split; [rewrite K; cbn; tauto|reflexivity]|rewrite K; apply ua_uuid].
  - revert J. apply must_names, O.
  - destruct J as [<- |[]]. apply (from_import _ "java.math"). apply (ua_behind sch inst ts n td r false _ O D); [right; split; [rewrite K; cbn; tauto|reflexivity]|rewrite K; apply ua_decimal].
  - rewrite flat_map_app in J. apply in_app_or in J as [J|J]; [revert J; apply must_names, O|revert J; apply dec_bounds_names].
  - revert J. apply stamp_names. intros q A. apply (ua_behind sch inst ts n td r false _ O D); [right; split; [rewrite K; cbn; tauto|reflexivity]|rewrite K; now apply ua_timestamp].
  - rewrite flat_map_app in J. apply in_app_or in J as [J|J]; [revert J; apply must_names, O|]. revert J. apply stamp_annos.
    + intros q A. apply (ua_behind sch inst ts n td r false _ O D); [right; split; [rewrite K; cbn; tauto|reflexivity]|rewrite K; now apply ua_timestamp].
    + intros a [<- |[<- |[]]]; auto.
  - destruct J as [<- |[]]. destruct D as (td' & D & <-). destruct (builtin_spec _ _ D) as [[I En]|[I En]].
    + right. right. right. right. right. exists td'. split; [exact I|]. split; [exact En|]. destruct (HT td' I) as (_ & [C|C] & _); [|exact C].
      exfalso. apply in_app_or in C as [C|C]; contradiction.
    + destruct Un as [[_ Un]| ->]; [|apply from_lang; cbn; tauto]. exfalso. destruct O as (O1 & O2 & O3). cbn in I.
      repeat (destruct I as [I|I]; [subst n; first [apply Un; cbn; tauto|apply O1; cbn; tauto|apply O3; cbn; tauto]|]). destruct I.
  - revert J. apply must_names, O.
Qed.

(** ** Classes *)
Definition slot_fit (s : slot) : Prop := usable sch (ts_type (slot_spec s)) /\ parts_usable sch (slot_spec s) (ts_type (slot_spec s)).
Lemma fit_slot s : slot_fit s -> fit (Some (slot_spec s)) (ts_type (slot_spec s)) /\ ~ in_place (slot_spec s).
Proof.
  intros [U P]. split; [split; [now left|]; intros s' E; injection E as <-; exact P|]. intros I. unfold in_place in I. apply (proj2 U). rewrite I. cbn. tauto.
Qed.
Lemma no_nests ss : (forall s, In s ss -> slot_fit s) -> forall lombok inner, inner_shown sch inst lombok ss inner -> inner = [].
Proof.
  intros H lombok inner S. inversion S as [ss' l inner' N L Sh]; subst. destruct l as [|[s c] l].
  - inversion Sh. reflexivity.
  - destruct (proj1 (L s c) (or_introl eq_refl)) as ((I & _) & a & b & E & _). exfalso. apply (proj2 (fit_slot s (H s ltac:(rewrite E; apply in_elt)))), I.
Qed.
(** a member: [r] says whether it is required *)
Lemma slot_names s m (Q : request -> Prop) : slot_shown sch inst s m -> slot_fit s -> (forall q, asks (Some (slot_spec s)) (ts_type (slot_spec s)) (snd (fst s)) q -> Q q) ->
  jm_optional m = negb (snd (fst s)) /\ jm_arg m = jm_type m
  /\ (forall x, In x (type_names (jm_type m) ++ flat_map anno_names (jm_annos m)) -> In x never_imported \/ origin Q x)
  /\ (jm_stamp m = true -> forall x, In x (anno_names Reads) -> In x never_imported \/ origin Q x).
Proof.
  destruct s as [[[n c] r] ts]. intros S F H. destruct (fit_slot _ F) as [F1 F2]. cbn [slot_spec snd fst] in *. cbn [slot_shown] in S. inversion S as [t a Np U|n' Ip]; subst; [|contradiction].
  cbn [jm_optional jm_arg jm_type jm_annos jm_stamp]. split; [reflexivity|]. split; [reflexivity|]. split.
  - intros x I. exact (or_mono _ _ _ _ H (use_names _ _ _ _ _ U F1 x I)).
  - intros St x I. destruct (string_dec (ts_type ts) "Timestamp") as [E|E]; [|discriminate]. subst inst.
    assert (A : forall q, stamp_asks true q -> Q q) by (intros q K; apply H; rewrite E; now apply ua_timestamp).
    apply (or_mono (stamp_asks true)); [exact A|]. destruct I as [<- |[<- |[]]].
    + apply (from_import _ "com.fasterxml.jackson.databind.annotation"). cbn. unfold databind. tauto.
    + apply from_helper. cbn. tauto.
Qed.
Context (lombok immutable pretty : bool).
Notation sasks := (struct_asks sch inst lombok immutable pretty).
Notation casks := (class_asks sch inst lombok immutable pretty).
Notation names := (mentioned lombok immutable pretty true).
Lemma pretty_from (Q : request -> Prop) x : (pretty = true -> Q Helper) -> In x (pretty_names pretty) -> In x never_imported \/ origin Q x.
Proof.
  intros H I. unfold pretty_names in I. destruct pretty; [|destruct I]. destruct I as [<- |[<- |[<- |[]]]]; [apply from_lang; cbn; tauto|apply from_lang; cbn; tauto|apply from_helper; auto].
Qed.
Lemma lombok_from (Q : request -> Prop) x l : (forall y, In y l -> Q (Wants ("lombok." +++ y))) -> In x l -> In x never_imported \/ origin Q x.
Proof. intros H I. apply (from_import _ "lombok"). exact (H x I). Qed.
Lemma struct_names fs n thrown c : struct_shown sch inst lombok fs n thrown c -> (forall f, In f fs -> slot_fit (field_slot f)) ->
  forall x, In x (names c) -> In x never_imported \/ origin (sasks fs true thrown) x.
Proof.
  intros S F x I.
  assert (SF : forall s, In s (map field_slot fs) -> slot_fit s) by (intros s J; apply in_map_iff in J as (f & <- & J); exact (F f J)).
  assert (MN : forall ms, Forall2 (slot_shown sch inst) (map field_slot fs) ms -> forall m, In m ms -> exists f, In f fs /\ slot_shown sch inst (field_slot f) m).
  { intros ms E m J. revert E J. generalize fs. intros l E. apply forall2_unmap in E. induction E as [|f k l ks R E IH]; intros []; [subst; exists f; split; [now left|exact R]|].
    destruct (IH H) as (g & Ig & Rg). exists g. split; [now right|exact Rg]. }
  assert (MM : forall ms, Forall2 (slot_shown sch inst) (map field_slot fs) ms -> In x (flat_map member_names ms) -> In x never_imported \/ origin (sasks fs true thrown) x).
  { intros ms E J. apply in_flat_map in J as (m & Im & J). destruct (MN _ E m Im) as (f & If & R).
    destruct (slot_names _ _ (sasks fs true thrown) R (F f If) (fun q K => sa_member sch inst lombok immutable pretty fs true thrown f q If K)) as (O & _ & A & _).
    unfold member_names in J. apply in_app_or in J as [J|J].
    - rewrite O in J. cbn [field_slot fst snd] in J. destruct (fd_required f) eqn:Rq; [destruct J|]. destruct J as [<- |[]].
      apply (from_import _ "com.fasterxml.jackson.annotation"). exact (sa_optional sch inst lombok immutable pretty fs true thrown f If Rq).
    - apply A. apply in_app_or in J. apply in_or_app. tauto. }
  assert (Im : In x (if immutable then ["JsonDeserialize"] else []) -> In x never_imported \/ origin (sasks fs true thrown) x).
  { intros J. destruct immutable eqn:Ei; [|destruct J]. destruct J as [<- |[]]. apply (from_import _ "com.fasterxml.jackson.databind.annotation").
    apply sa_builder; [reflexivity|]. unfold databind. cbn. tauto. }
  assert (Th : In x (if thrown then ["JsonIgnoreProperties"; "RuntimeException"] else []) -> In x never_imported \/ origin (sasks fs true thrown) x).
  { intros J. destruct thrown; [|destruct J]. destruct J as [<- |[<- |[]]]; [|apply from_lang; cbn; tauto]. apply (from_import _ "com.fasterxml.jackson.annotation"). apply sa_thrown. }
  inversion S as [fs' n' th ms inner W E _ In'|fs' n' ms L E]; subst; cbn [mentioned] in I; cbv zeta in I.
  - assert (Lo : (lombok && negb thrown)%bool = false) by (destruct lombok; [rewrite (W eq_refl)|]; reflexivity). rewrite Lo in I. cbn [andb] in I.
    apply in_app_or in I as [I|I]; [exact (Im I)|]. apply in_app_or in I as [I|I]; [exact (Th I)|]. apply in_app_or in I as [[]|I].
    apply in_app_or in I as [I|I]; [exact (MM _ E I)|]. apply in_app_or in I as [I|I].
    + destruct immutable eqn:Ei; [|destruct I]. destruct I as [<- |I].
      * apply (from_import _ "com.fasterxml.jackson.databind.annotation"). apply sa_builder; [reflexivity|]. unfold databind. cbn. tauto.
      * apply in_flat_map in I as (m & Mm & I). destruct (MN _ E m Mm) as (f & If & R).
        destruct (slot_names _ _ (struct_asks sch inst lombok true pretty fs true thrown) R (F f If) (fun q K => sa_member sch inst lombok true pretty fs true thrown f q If K)) as (_ & Ar & A & B).
        unfold argument_names in I. rewrite Ar in I. apply in_app_or in I as [I|I]; [apply A, in_or_app; now left|]. destruct (jm_stamp m) eqn:St; [exact (B eq_refl x I)|destruct I].
    + apply in_app_or in I as [I|I]; [revert I; apply pretty_from; intros P; now apply sa_pretty|]. rewrite (no_nests _ SF _ _ In') in I. destruct I.
  - cbn [andb negb] in I. apply in_app_or in I as [I|I]; [exact (Im I)|]. apply in_app_or in I as [[]|I].
    apply in_app_or in I as [I|I].
    + apply in_app_or in I as [I|I].
      * revert I. apply lombok_from. intros y Iy. apply sa_lombok; [reflexivity|]. cbn in Iy |- *. intuition (subst; auto).
      * destruct ms as [|m ms]; [destruct I|]. revert I. apply lombok_from. intros y [<- |[]]. apply sa_arguments; [reflexivity|]. intros ->. inversion E.
    + rewrite app_nil_r in I. exact (MM _ E I).
Qed.
Lemma class_names thrown ts n c : class_shown sch inst lombok thrown ts n c ->
  (forall f, ts_type ts = "Struct" -> In f (ts_fields ts) -> slot_fit (field_slot f)) -> (forall v, ts_type ts = "Union" -> In v (ts_variants ts) -> slot_fit (variant_slot v)) ->
  (ts_type ts = "UnitValue" -> (usable sch (ts_value ts) /\ ~ container (ts_value ts)) /\ usable sch (ts_unit ts) /\ ~ container (ts_unit ts)) ->
  forall x, In x (names c) -> excused c x \/ origin (casks (thrown n) ts) x.
Proof.
  intros S FF FV FU x I.
  assert (K : In x never_imported \/ origin (casks (thrown n) ts) x -> excused c x \/ origin (casks (thrown n) ts) x) by (intros [J|J]; [left; now left|now right]).
  inversion S as [c' T Sc|ms inner T E Nn In'|l T E|v a u b k e T Uv Uu D C]; subst.
  - apply K. refine (or_mono _ _ _ _ _ (struct_names _ _ _ _ Sc (fun f J => FF f T J) x I)). intros q A. now apply ca_struct.
  - apply K. clear K. cbn [mentioned] in I. apply in_app_or in I as [I|I].
    { destruct lombok eqn:L; [|destruct I]. revert I. apply lombok_from. intros y Iy. apply ca_lombok; [exact T|reflexivity|]. cbn in Iy |- *. intuition (subst; auto). }
    apply in_app_or in I as [I|I].
    { apply (from_import _ "com.fasterxml.jackson.annotation"). apply ca_union; [exact T|]. unfold annotation. cbn in I |- *. intuition (subst; auto). }
    apply in_app_or in I as [I|I].
    { apply in_flat_map in I as (m & Im & I). assert (R : exists v, In v (ts_variants ts) /\ slot_shown sch inst (variant_slot v) m).
      { clear -E Im. apply forall2_unmap in E. induction E as [|f k l ks R E IH]; destruct Im; [subst; exists f; split; [now left|exact R]|].
        destruct (IH H) as (g & Ig & Rg). exists g. split; [now right|exact Rg]. }
      destruct R as (v & Iv & R).
      destruct (slot_names _ _ (casks (thrown n) ts) R (FV v T Iv) (fun q A => ca_variant sch inst lombok immutable pretty (thrown n) ts v q T Iv A)) as (_ & Ar & A & _). rewrite Ar in I.
      apply in_app_or in I as [I|I].
      - apply (from_import _ "com.fasterxml.jackson.annotation"). apply ca_union; [exact T|]. unfold annotation. cbn in I |- *. intuition (subst; auto).
      - apply A. apply in_or_app. apply in_app_or in I as [I|I]; [auto|]. apply in_app_or in I as [I|I]; auto. }
    apply in_app_or in I as [I|I]; [revert I; apply pretty_from; intros P; now apply ca_pretty|]. assert (inner = []) as ->; [|destruct I].
    refine (no_nests _ _ _ _ In'). intros s J. apply in_map_iff in J as (v & <- & J). exact (FV v T J).
  - apply K. cbn [mentioned] in I. destruct I as [<- |[<- |[<- |[<- |[<- |[]]]]]]; try (apply from_lang; cbn; tauto);
      apply (from_import _ "com.fasterxml.jackson.annotation"); (apply ca_enum; [exact T|]); unfold annotation; cbn; tauto.
  - destruct (FU T) as [[U1 N1] [U2 N2]]. cbn [mentioned] in I. apply in_app_or in I as [I|I].
    { apply K. refine (or_mono _ _ _ _ _ (use_names _ _ _ _ _ Uv (fit_plain _ _ (or_introl U1) N1) x (in_or_app _ _ _ (or_introl I)))). intros q. now apply ca_value. }
    apply in_app_or in I as [I|I].
    { apply K. refine (or_mono _ _ _ _ _ (use_names _ _ _ _ _ Uu (fit_plain _ _ (or_introl U2) N2) x (in_or_app _ _ _ (or_introl I)))). intros q. now apply ca_units. }
    destruct I as [<- |[<- |[<- |[<- |[<- |[]]]]]].
    + apply K, (from_import _ "javax.validation.constraints"). apply ca_unit; [exact T|]. unfold constraint. cbn. tauto.
    + left. right. split; [reflexivity|]. eauto.
    + apply K, from_lang. cbn. tauto.
    + apply K, (from_import _ "com.fasterxml.jackson.annotation"). apply ca_unit; [exact T|]. unfold annotation. cbn. tauto.
    + apply K, from_lang. cbn. tauto.
Qed.
End NAMES.
