(** Constraints and comments of fields through an OpenAPI export and import. *)
From Verif Require Import GoStr Outcome Value Schema Model SpecModel ModelFacts SpecPV SpecMisc SpecGen OpenApi SpecOpenApi OpenApiFacts OpenApiTotal SpecOpenBack.

Section T.
Context (f64 : decimal -> decimal) (sch : schema) (m : model) (Hm : new_model sch = Ok m).
Notation schema_at := (oas_schema f64 m).

Lemma int_back z : int64 z -> to_int64 (to_uint64 z) = z.
Proof.
  unfold int64, to_int64, to_uint64. intros H. rewrite Z.mod_mod by lia. destruct (Z.ltb_spec (z mod 2 ^ 64) (2 ^ 63)).
  - destruct (Z.lt_ge_cases z 0); [|apply Z.mod_small; lia]. exfalso.
    rewrite <- (Z.mod_add z 1 (2 ^ 64)) in H0 by lia. rewrite Z.mod_small in H0 by lia. lia.
  - destruct (Z.lt_ge_cases z 0); [|rewrite Z.mod_small in H0 by lia; lia].
    rewrite <- (Z.mod_add z 1 (2 ^ 64)) by lia. rewrite Z.mod_small by lia. lia.
Qed.
Lemma unsigned_pos z : int64 z -> z <> 0%Z -> (0 <? to_uint64 z)%Z = true.
Proof.
  unfold int64, to_uint64. intros H N. apply Z.ltb_lt. destruct (Z.lt_ge_cases z 0); [|rewrite Z.mod_small by lia; lia].
  rewrite <- (Z.mod_add z 1 (2 ^ 64)) by lia. rewrite Z.mod_small by lia. lia.
Qed.
Lemma kept_limits fuel ts s ts' : In (ts_type ts) kept_scalars -> schema_at fuel ts "" = Ok s -> convert_oas s = Ok ts' ->
  oas_type_ref s = "" /\ limits_back f64 ts ts' /\ o_desc s = (if string_dec (ts_type ts) "Decimal" then "Decimal" else "").
Proof.
  intros V H C. destruct fuel as [|fuel]; [discriminate|]. cbn [oas_schema] in H. unfold num_schema in H.
  destruct (string_dec (ts_type ts) "String") as [E|NE].
  - rewrite E in H |- *. cbn in H. injection H as <-. cbn in C. injection C as <-. split; [reflexivity|]. split; [|reflexivity].
    constructor; cbn; rewrite ?E; intros; try reflexivity.
    + destruct H as [->|[->|H]]; [reflexivity|reflexivity|congruence].
    + rewrite H0. rewrite (unsigned_pos z H1 H2), (int_back z H1). reflexivity.
    + destruct H as [->|H]; [reflexivity|congruence].
    + rewrite H0. cbn. rewrite (int_back z H1). reflexivity.
    + exfalso. simpl in H. intuition discriminate.
  - assert (LB : forall mn mx t, (In (ts_type ts) ["Int32"; "Int64"; "Decimal"] -> mn = option_map f64 (ts_min ts) /\ mx = option_map f64 (ts_max ts)) ->
      limits_back f64 ts (ts_fill t "" None None None [] [] mn mx "")).
    { intros mn mx t B. constructor; try (intros; contradiction); try reflexivity. exact B. }
    simpl in V. destruct V as [V|[V|[V|[V|[V|[V|[]]]]]]].
    + rewrite <- V in H |- *. cbn in H. injection H as <-. cbn in C. injection C as <-. split; [reflexivity|]. split; [|reflexivity].
      apply (LB None None "Bool"). rewrite <- V. intros I. exfalso. simpl in I. intuition discriminate.
    + rewrite <- V in H |- *. cbn in H. injection H as <-. cbn in C. injection C as <-. split; [reflexivity|]. split; [|reflexivity]. apply LB. auto.
    + rewrite <- V in H |- *. cbn in H. injection H as <-. cbn in C. injection C as <-. split; [reflexivity|]. split; [|reflexivity]. apply LB. auto.
    + rewrite <- V in H |- *. cbn in H. injection H as <-. cbn in C. injection C as <-. split; [reflexivity|]. split; [|reflexivity]. apply LB. auto.
    + exfalso. congruence.
    + rewrite <- V in H |- *. cbn in H. injection H as <-. cbn in C. injection C as <-. split; [reflexivity|]. split; [|reflexivity].
      apply (LB None None "Timestamp"). rewrite <- V. intros I. exfalso. simpl in I. intuition discriminate.
Qed.
Lemma others_desc fuel ts s : survives sch ts -> ~ In (ts_type ts) kept_scalars -> schema_at fuel ts "" = Ok s -> o_desc s = "".
Proof.
  intros V NK H. destruct fuel as [|fuel]; [discriminate|]. destruct V as [V|[[D NE]|[E V]]]; [contradiction| |].
  - assert (NB := not_builtin sch m Hm _ D).
    assert (X : forall b, In b builtin_names -> (ts_type ts =?s b) = false).
    { intros b B. destruct (ts_type ts =?s b) eqn:Q; [|reflexivity]. apply seqb_eq in Q. rewrite Q in NB. contradiction. }
    assert (S : str_mem (ts_type ts) number_types = false).
    { unfold str_mem, number_types. cbn [existsb]. rewrite !X by (simpl; tauto). reflexivity. }
    cbn [oas_schema] in H. rewrite S in H. rewrite !X in H by (simpl; tauto). injection H as <-. reflexivity.
  - cbn [oas_schema] in H. rewrite E in H. cbn in H. destruct (find_type m (ts_items ts)) as [td|]; [|discriminate].
    apply rbind_Ok in H. destruct H as (i & H & Q). injection Q as <-. reflexivity.
Qed.
Lemma field_all fuel ts s : survives sch ts -> schema_at fuel ts "" = Ok s ->
  exists ts', (if negb (oas_type_ref s =?s "") then Ok (ts_of (oas_type_ref s)) else convert_oas s) = Ok ts'
    /\ (ts_type ts' = ts_type ts /\ (ts_type ts = "Array" -> ts_items ts' = ts_items ts))
    /\ (In (ts_type ts) kept_scalars -> limits_back f64 ts ts') /\ o_desc s = (if string_dec (ts_type ts) "Decimal" then "Decimal" else "").
Proof.
  intros V H. destruct (field_back f64 sch m Hm fuel ts s V H) as (ts' & E1 & E2 & E3). exists ts'. split; [exact E1|]. split; [split; assumption|].
  destruct (in_dec string_dec (ts_type ts) kept_scalars) as [K|NK].
  - assert (R : oas_type_ref s = "").
    { destruct fuel as [|fuel]; [discriminate|]. clear E1. cbn [oas_schema] in H. unfold num_schema in H. simpl in K.
      repeat (destruct K as [K|K]; [rewrite <- K in H; simpl in H; injection H as <-; reflexivity|]). destruct K. }
    rewrite R in E1. cbn in E1. destruct (kept_limits fuel ts s ts' K H E1) as (_ & L & D). split; [intros _; exact L|exact D].
  - split; [intros X; contradiction|]. rewrite (others_desc fuel ts s V NK H). destruct (string_dec (ts_type ts) "Decimal") as [Q|]; [|reflexivity].
    exfalso. apply NK. rewrite Q. simpl. tauto.
Qed.
Lemma struct_back_all fuel doc td : export_oas f64 m fuel = Ok doc -> In td (sc_types sch) -> ts_type (td_spec td) = "Struct" ->
  NoDup (map fd_name (ts_fields (td_spec td))) -> (forall f, In f (ts_fields (td_spec td)) -> survives sch (fd_spec f)) ->
  exists s ts, In (td_name td, s) (od_schemas doc) /\ o_desc s = td_comment td /\ convert_oas s = Ok ts /\ ts_type ts = "Struct"
    /\ Forall2 (field_back_as f64) (ts_fields (td_spec td)) (ts_fields ts).
Proof.
  intros H I K N V. destruct (export_schemas f64 sch m Hm fuel doc H) as (L & T & _). destruct (T td I) as (s & S).
  assert (J : In (td_name td, s) (od_schemas doc)) by (apply L; exists td; auto).
  unfold export_typedef in S. rewrite K in S. simpl in S. unfold export_struct in S. apply rbind_Ok in S.
  destruct S as ([req ps] & F & E). injection E as <-.
  assert (F2 := F). apply (fields_required f64 m) in F2; [|constructor]. destruct F2 as (R & _). apply fields_exact in F; [|exact N]. destruct F as (ss & A & ->). cbn [app] in *.
  set (fs := ts_fields (td_spec td)) in *.
  assert (RQ : forall f, In f fs -> contains_string req (fd_name f) = fd_required f).
  { intros f If. unfold contains_string. destruct (fd_required f) eqn:Q.
    - apply str_mem_In. rewrite R. apply in_map. apply filter_In. auto.
    - destruct (str_mem (fd_name f) req) eqn:M; [|reflexivity]. apply str_mem_In in M. rewrite R in M. apply in_map_iff in M. destruct M as (g & E & G).
      apply filter_In in G. destruct G as [G GR]. assert (f = g); [|congruence]. clear -N If G E. induction fs as [|x l IH]; [destruct If|].
      cbn [map] in N. inversion N as [|? ? X N']; subst. destruct If as [->|If], G as [->|G]; [reflexivity| | |auto].
      + exfalso. apply X. rewrite <- E. apply in_map. exact G.
      + exfalso. apply X. rewrite E. apply in_map. exact If. }
  assert (C : exists gs, convert_oas (oas_object (td_comment td) (combine (map fd_name fs) ss) req) = Ok (ts_fill "Struct" "" None None None [] gs None None "")
              /\ Forall2 (field_back_as f64) fs gs).
  { cbn. clearbody fs. clear -A V RQ Hm.
    induction A as [|f s fs ss S A IH]; [exists []; split; [reflexivity|constructor]|].
    cbn [map combine]. destruct (field_all _ _ _ (V f (or_introl eq_refl)) S) as (ts' & E1 & (E2 & E3) & LB & DE). rewrite E1. cbn [rbind].
    destruct (IH (fun x X => V x (or_intror X)) (fun x X => RQ x (or_intror X))) as (gs & G & FA).
    apply rbind_Ok in G. destruct G as (gs' & G & E). injection E as <-. rewrite G. cbn [rbind]. eexists. split; [reflexivity|].
    constructor; [|exact FA]. split; [|split; [exact DE|exact LB]]. split; [reflexivity|]. split; [cbn; apply RQ; left; reflexivity|]. split; [exact E2|exact E3]. }
  destruct C as (gs & C & FA). eexists _, _. split; [exact J|]. split; [reflexivity|]. split; [exact C|]. split; [reflexivity|exact FA].
Qed.
End T.
