(** Models whose Java files can be generated. *)
From Verif Require Import GoStr Outcome Value Schema Scalars Model Misc Generator Golang GoModel GoServer OpenApi Java JavaModel
  SpecTime SpecMisc SpecModel SpecPV SpecParser SpecTrace SpecGo SpecGen SpecJava ModelFacts PVFacts TraceFacts GenFacts GoModelFacts GoText JavaFacts JavaText JavaFiles JavaGood.
From Coq Require Import Lia Permutation.

Lemma uncap_ne s : s <> "" -> uncapitalize s <> "".
Proof. destruct s as [|c r]; [congruence|]. intros _. unfold uncapitalize, lower1. destruct (is_ascii7 c); discriminate. Qed.
Section USES.
Context (sch : schema) (m : model) (Hm : new_model sch = Ok m) (inst : bool) (rank : string -> nat).
Context (HB : ~ known sch "Boolean") (HK : forall td, In td (sc_types sch) -> ts_type (td_spec td) <> "Boolean").
Context (HC : descends sch rank).
Notation java := (has_java sch inst).
Lemma prim_java ts n r : In n (map (fun x => fst (fst x)) primitives) -> java ts n r.
Proof.
  intros I. apply in_map_iff in I as ([[n' p] b] & E & I). cbn in E. subst n'. destruct r; [eexists _, _; eapply ju_primitive; exact I|].
  destruct (string_dec n "Bool") as [->|N]; [|eexists _, _; eapply ju_boxed; [exact I|exact N]].
  eexists _, _. apply ju_bool. apply ju_unknown; [split; [|split]; cbn; intuition discriminate|]. intros td D. apply HB. exists td. exact D.
Qed.
Lemma plain_java k : forall n, rank n < k -> ~ container n -> forall ts r, java ts n r.
Proof.
  induction k as [|k IH]; intros n Lk Nc ts r; [lia|].
  destruct (in_dec string_dec n (map (fun x => fst (fst x)) primitives)) as [P|P]; [exact (prim_java ts n r P)|].
  destruct (in_dec string_dec n boxes) as [B|B]; [eexists _, _; apply ju_box, B|].
  destruct (in_dec string_dec n special_names) as [S|S].
  { unfold container in Nc. cbn in S.
    repeat match type of S with _ \/ _ => destruct S as [S|S]; [rewrite <- S in Nc |- *; first [eexists _, _; first [apply ju_string|apply ju_decimal|apply ju_timestamp|apply ju_uuid|apply ju_any]|exfalso; tauto]|] end. destruct S. }
  assert (O : opaque n) by (split; [exact P|split; [exact B|exact S]]).
  destruct (find_type m n) as [td|] eqn:F; [|eexists _, _; apply ju_unknown; [exact O|]; intros t D; destruct (def_find sch m Hm _ _ D) as (t' & F' & _); congruence].
  pose proof (find_def sch m Hm _ _ F) as D. pose proof D as (td' & Dc & Es).
  destruct (in_dec string_dec (ts_type (td_spec td)) numbers) as [Q|Q].
  { assert (J : java (Some (td_spec td)) (ts_type (td_spec td)) r).
    { apply prim_java. destruct Dc as [[Bn ->]|[I Nn]].
      - exfalso. rewrite <- Es in Q. cbn [td_spec ts_of ts_type] in Q. apply P. clear -Q Bn. cbn in Q, Bn |- *. intuition congruence.
      - pose proof (HK td' I) as Nb. rewrite Es in Nb. clear -Q Nb. cbn in Q |- *. intuition congruence. }
    destruct J as (t & a & J). exists t, a. exact (ju_number sch inst ts n _ r t a O D Q J). }
  destruct (string_dec (ts_type (td_spec td)) "String") as [T|N1]; [eexists _, _; eapply ju_text; [exact O|exact D|exact T|apply ju_string]|].
  destruct (string_dec (ts_type (td_spec td)) "Array") as [T|N2].
  { destruct Dc as [[Bn ->]|[I Nn]]; [exfalso; apply Nc; left; rewrite <- Es in T; exact T|]. rewrite <- Es in T. destruct (proj1 (HC td' I) T) as ([[ti Di] Ni] & L). rewrite Nn in L.
    destruct (IH (ts_items (td_spec td')) ltac:(lia) Ni (Some ti) false) as (t & a & U). exists (JTList t), (must false). eapply ju_container; [exact O|exact D|left; rewrite <- Es; exact T|].
    rewrite <- Es, T. eapply ju_list_of; eassumption. }
  destruct (string_dec (ts_type (td_spec td)) "Map") as [T|N3].
  { destruct Dc as [[Bn ->]|[I Nn]]; [exfalso; apply Nc; right; rewrite <- Es in T; exact T|]. rewrite <- Es in T. destruct (proj2 (HC td' I) T) as (([tk Dk] & Nk) & L1 & ([ti Di] & Ni) & L2). rewrite Nn in L1, L2.
    destruct (IH (ts_keys (td_spec td')) ltac:(lia) Nk (Some tk) false) as (t1 & a1 & U1). destruct (IH (ts_items (td_spec td')) ltac:(lia) Ni (Some ti) false) as (t2 & a2 & U2).
    exists (JTMap t1 t2), (must false). eapply ju_container; [exact O|exact D|right; rewrite <- Es; exact T|]. rewrite <- Es, T. eapply ju_map_of; eassumption. }
  destruct (string_dec (ts_type (td_spec td)) "UUID") as [T|N4]; [eexists _, _; eapply ju_uuids; eassumption|].
  destruct (string_dec (ts_type (td_spec td)) "Decimal") as [T|N5]; [eexists _, _; eapply ju_decimals; eassumption|].
  destruct (string_dec (ts_type (td_spec td)) "Timestamp") as [T|N6]; [eexists _, _; eapply ju_timestamps; eassumption|].
  eexists _, _. eapply ju_class; [exact O|exact D|exact Q|]. cbn. intuition congruence.
Qed.
Lemma typed_java ts r : (container (ts_type ts) -> go_typed sch ts (ts_type ts)) -> java (Some ts) (ts_type ts) r.
Proof.
  intros H. destruct (string_dec (ts_type ts) "Array") as [T|N1]; [|destruct (string_dec (ts_type ts) "Map") as [T|N2]].
  - rewrite T in *. destruct (H (or_introl eq_refl)) as [[_ C]|[(_ & [ti D] & N)|(E & _)]]; [destruct C; now left| |discriminate].
    destruct (plain_java _ (ts_items ts) (le_n _) N (Some ti) false) as (t & a & U). eexists _, _. eapply ju_list_of; eassumption.
  - rewrite T in *. destruct (H (or_intror eq_refl)) as [[_ C]|[(E & _)|(_ & ([tk D1] & N1') & ([ti D2] & N2))]]; [destruct C; now right|discriminate|].
    destruct (plain_java _ (ts_keys ts) (le_n _) N1' (Some tk) false) as (t1 & a1 & U1). destruct (plain_java _ (ts_items ts) (le_n _) N2 (Some ti) false) as (t2 & a2 & U2).
    eexists _, _. eapply ju_map_of; eassumption.
  - apply (plain_java _ _ (le_n _)). intros [C|C]; contradiction.
Qed.
Lemma none_java n r : java None n r.
Proof.
  destruct (string_dec n "Array") as [->|N1]; [eexists _, _; apply ju_list|]. destruct (string_dec n "Map") as [->|N2]; [eexists _, _; apply ju_map|].
  apply (plain_java _ _ (le_n _)). intros [C|C]; contradiction.
Qed.
Lemma simple_fields lombok immutable (fs : list fielddef) n P :
  (forall f, In f fs -> fd_name f <> "" /\ fd_name f <> "package" /\ ~ in_place (fd_spec f) /\ (container (ts_type (fd_spec f)) -> go_typed sch (fd_spec f) (ts_type (fd_spec f)))) ->
  fields_good sch inst lombok immutable fs n P.
Proof.
  intros H. constructor.
  - intros f I. destruct (H f I) as (A & B & C & D). split; [exact B|]. split; [intros [K _]; contradiction|]. split; [exact (typed_java _ _ D)|intros K; contradiction].
  - intros _. split; [intros _ f I; apply (H f I)|]. intros s c ([K _] & a & b & E & _). exfalso. assert (I : In s (map field_slot fs)) by (rewrite E; apply in_elt).
    apply in_map_iff in I as (f & <- & I). destruct (H f I) as (_ & _ & C & _). exact (C K).
Qed.
Lemma unit_java ts u : good_unit sch u -> exists t a, java_use sch inst ts u true t a /\ known sch (jtype_text t).
Proof.
  intros (k & D & E).
  assert (KS : known sch "String") by (exists (ts_of "String"), (mkTD "String" "" [] (ts_of "String")); split; [left; split; [cbn; tauto|reflexivity]|reflexivity]).
  assert (BU : In u builtin_names -> ts_type k = u).
  { intros B. rewrite (builtin_def sch m Hm u k B D). reflexivity. }
  destruct (in_dec string_dec u boxes) as [B|B]; [eexists _, _; split; [apply ju_box, B|exists k; exact D]|].
  destruct (in_dec string_dec u builtin_names) as [Q|Q].
  - specialize (BU Q). rewrite BU in E. destruct E as [<- |[<- |[]]]; [eexists _, _; split; [apply ju_string|exact KS]|].
    eexists _, _. split; [eapply ju_class; [split; [|split]; cbn; intuition discriminate|exact D| |]; rewrite BU; cbn; intuition discriminate|exists k; exact D].
  - assert (O : opaque u) by (split; [|split; [exact B|]]; intros C; apply Q; clear -C; cbn in C |- *; tauto).
    destruct E as [E|[E|[]]]; symmetry in E.
    + eexists _, _. split; [eapply ju_text; [exact O|exact D|exact E|apply ju_string]|exact KS].
    + eexists _, _. split; [eapply ju_class; [exact O|exact D| |]; rewrite E; cbn; intuition discriminate|exists k; exact D].
Qed.
Lemma simple_good lombok immutable service name :
  (forall td, In td (sc_types sch) -> td_name td <> "") ->
  (forall n ts, member_of sch n ts -> n <> "" /\ ~ in_place ts /\ (container (ts_type ts) -> go_typed sch ts (ts_type ts))) ->
  (forall td f, In td (sc_types sch) -> ts_type (td_spec td) = "Struct" -> In f (ts_fields (td_spec td)) -> fd_name f <> "package") ->
  (forall td, In td (sc_types sch) -> ts_type (td_spec td) = "UnitValue" -> ~ container (ts_value (td_spec td)) /\ good_unit sch (ts_unit (td_spec td))) ->
  (name <> "" -> forall h, In h (sc_http sch) -> h_name h <> "" /\ h_expected h <> None
     /\ (forall p, In p (h_inputs h) -> fd_name (ps_field p) <> "package")
     /\ forall x p, h_expected h = Some x -> In p (xp_outputs x) -> fd_name (ps_field p) <> "package") ->
  java_good sch inst lombok immutable service name.
Proof.
  intros T M F U A. split; [intros _ h x _ _; apply none_java|]. split.
  - intros td I. split; [exact (T td I)|]. intros W n _. cbn in W. destruct W as [W|[W|[W|[W|[]]]]]; symmetry in W.
    + left. split; [exact W|]. apply simple_fields. intros f J. destruct (M _ _ (mo_field sch td f I W J)) as (B & C & D). auto using (F td f I W J).
    + right; right; right. split; [exact W|]. destruct (U td I W) as [C D]. split; [exact (plain_java _ _ (le_n _) C _ _)|].
      apply unit_java, D.
    + right; right; left. exact W.
    + right; left. split; [exact W|]. split.
      * intros v J. destruct (M _ _ (mo_variant sch td v I W J)) as (B & C & D). split; [exact B|]. split; [intros [K _]; contradiction|]. split; [exact (typed_java _ _ D)|intros K; contradiction].
      * intros s c ([K _] & a & b & E & _). exfalso. assert (J : In s (map variant_slot (ts_variants (td_spec td)))) by (rewrite E; apply in_elt).
        apply in_map_iff in J as (v & <- & J). destruct (M _ _ (mo_variant sch td v I W J)) as (_ & C & _). exact (C K).
  - intros N h I. destruct (A N h I) as (B & C & D & E). destruct (h_expected h) as [x|] eqn:X; [|congruence].
    assert (Q : uncapitalize (h_name h) <> "") by (destruct (h_name h); [congruence|apply uncap_ne; discriminate]).
    exists (uncapitalize (h_name h)), (capitalize (uncapitalize (h_name h))), x. split; [|split; [exact X|split; [|split]]].
    + split; [left; split; [exact B|]|split; [exact Q|]]; [apply small_first_iff|apply large_first_iff]; reflexivity.
    + apply simple_fields. intros f J. apply in_map_iff in J as (p & <- & J). destruct (M _ _ (mo_input sch h p I J)) as (B1 & C1 & D1). split; [exact B1|]. split; [exact (D p J)|]. split; assumption.
    + apply simple_fields. intros f J. apply in_map_iff in J as (p & <- & J). destruct (M _ _ (mo_output sch h x p I X J)) as (B1 & C1 & D1). split; [exact B1|]. split; [exact (E x p eq_refl J)|]. split; assumption.
    + intros p _. apply none_java.
Qed.
End USES.
