(** Lemmas that close the validation properties, and the witnesses for their examples. *)
From Verif Require Import GoStr Outcome Value Schema Scalars Time Model SpecTime SpecModel TimeFacts
  ModelFacts MemberFacts Demo.

Section V.
Variable X : ext.
Variable sch : schema.
Variable m : model.
Hypothesis Hm : new_model sch = Ok m.

Lemma find_type_exact :
  (forall n td, find_type m n = Some td <-> declares sch n td) /\
  (forall n, find_type m n = None <-> ~ In n builtin_names /\ ~ In n (map td_name (sc_types sch))) /\
  (forall n, In n builtin_names -> find_type m n = Some (mkTD n "" [] (ts_of n))).
Proof.
  split; [exact (find_type_spec sch m Hm)|]. split.
  - intro n. rewrite (find_type_none sch m Hm). split.
    + intro H. split; intro Hi.
      * apply (H (mkTD n "" [] (ts_of n))). now left.
      * apply in_map_iff in Hi. destruct Hi as (td & Hn & Hi). apply (H td). now right.
    + intros [H1 H2] td [[Hb _]|[Hi <-]]; [contradiction|]. apply H2. now apply in_map.
  - intros n Hb. apply (find_type_spec sch m Hm). now left.
Qed.
Lemma find_http_exact :
  (forall n h, find_http m n = Some h <-> In h (sc_http sch) /\ h_name h = n) /\
  (forall n, find_http m n = None <-> ~ In n (map h_name (sc_http sch))).
Proof.
  pose proof (find_http_spec sch m Hm) as Hs. split; [exact Hs|]. intro n. split.
  - intros Hn Hi. apply in_map_iff in Hi. destruct Hi as (h & Hh & Hi).
    assert (E : find_http m n = Some h) by (apply Hs; auto). congruence.
  - intro Hn. destruct (find_http m n) as [h|] eqn:E; [|reflexivity].
    exfalso. apply Hs in E. destruct E as [Hi <-]. apply Hn. now apply in_map.
Qed.

Lemma accepted_accepts ctx n v ts : vwf v -> defines sch n ts ->
  (exists fuel, validate X m fuel ctx n v = Ok tt) -> accepts X sch ts v.
Proof.
  intros Hw Hd H. apply (validate_iff X sch m Hm) in H; [|exact Hw]. destruct H as (ts' & Hd' & Ha).
  now rewrite (defines_fun sch m Hm _ _ _ Hd Hd').
Qed.
Lemma accepted_conforms ctx n v ts : vwf v -> defines sch n ts ->
  (forall ts', leads sch ts ts' -> no_lax X sch ts') ->
  (exists fuel, validate X m fuel ctx n v = Ok tt) -> member X sch ts v.
Proof. intros Hw Hd Hl H. apply accepts_member; [|exact Hl]. eapply accepted_accepts; eauto. Qed.
Lemma conforming_accepted ctx n v ts : vwf v -> literal v -> defines sch n ts ->
  (forall ts', leads sch ts ts' -> no_strict ts') ->
  member X sch ts v -> exists fuel, validate X m fuel ctx n v = Ok tt.
Proof.
  intros Hw Hl Hd Hs H. apply (validate_iff X sch m Hm); [exact Hw|]. exists ts. split; [exact Hd|].
  now apply member_accepts.
Qed.

Lemma integer_range_unchecked k : In k ["Int8"; "Int16"; "Int32"; "Int64"] ->
  forall ctx d, validate X m 1 ctx k (VDec d) = Ok tt.
Proof.
  intros Hk ctx d. unfold validate, validate_named.
  assert (Hb : In k builtin_names) by (simpl in *; tauto).
  rewrite (proj2 (proj2 find_type_exact) k Hb). cbn [td_spec validate_spec].
  rewrite step_number; [|simpl in *; tauto]. apply validate_number_ok; [simpl in *; tauto|].
  exists d. split; [reflexivity|]. split; discriminate.
Qed.

Lemma vwf_pos ts v ts' v' : at_pos sch ts v ts' v' -> vwf v -> vwf v'.
Proof.
  induction 1 as [ts v|ts t1 v ts2 v2 Hr Hp IH|ts l f x ts2 v2 Hk Hf Hx Hp IH
                 |ts t1 l x ts2 v2 Hk Ha Hd Hx Hp IH|ts t1 l k x ts2 v2 Hk Ha Hd Hx Hp IH]; intro Hw; auto.
  - apply IH. inversion Hw as [w _ Hn| |l0 _ Hl]; subst; [now specialize (Hn l)|].
    rewrite Forall_forall in Hl. exact (Hl _ Hx).
  - apply IH. inversion Hw as [w Hn _|l0 Hl|]; subst; [now specialize (Hn l)|].
    rewrite Forall_forall in Hl. exact (Hl _ Hx).
  - apply IH. inversion Hw as [w _ Hn| |l0 _ Hl]; subst; [now specialize (Hn l)|].
    rewrite Forall_forall in Hl. exact (Hl _ Hx).
Qed.
Lemma at_pos_accepted ctx n ts v ts' v' : vwf v -> defines sch n ts ->
  (exists fuel, validate X m fuel ctx n v = Ok tt) -> at_pos sch ts v ts' v' -> accepts X sch ts' v' /\ vwf v'.
Proof.
  intros Hw Hd H Hp. split; [|eapply vwf_pos; eauto].
  eapply accepts_at_pos; eauto. eapply accepted_accepts; eauto.
Qed.

Lemma declared_limits ctx n ts v ts' v' : vwf v -> defines sch n ts ->
  (exists fuel, validate X m fuel ctx n v = Ok tt) ->
  at_pos sch ts v ts' v' -> In (ts_type ts') number_kinds ->
  exists d, v' = VDec d /\ within d (ts_min ts') (ts_max ts').
Proof.
  intros Hw Hd H Hp Hk. destruct (at_pos_accepted _ _ _ _ _ _ Hw Hd H Hp) as [Ha _].
  eapply accepts_number_inv; eauto.
Qed.

Lemma ranked_terminates (rank : string -> nat) :
  (forall td, In td (sc_types sch) -> In (ts_type (td_spec td)) kinds \/
     (ts_type (td_spec td) <> "Union" /\ rank (ts_type (td_spec td)) < rank (td_name td))) ->
  forall ts, (forall ts', leads sch ts ts' -> ts_type ts' <> "Union") ->
  forall v, exists N, forall fuel ctx, N <= fuel -> validate_spec X m fuel ctx ts v <> OutOfFuel.
Proof.
  intros Hr ts Hu v. apply (terminates X sch m Hm). intros ts' Hl.
  apply (ranked_names_end sch rank Hr). auto.
Qed.

Lemma declared_union_diverges n ts : defines sch n ts -> ts_type ts = "Union" ->
  forall fuel ctx v, validate X m fuel ctx n v = OutOfFuel.
Proof.
  intros Hd Ht fuel ctx v. apply (find_type_defines sch m Hm) in Hd. destruct Hd as (td & E & <-).
  unfold validate, validate_named. rewrite E. destruct fuel as [|f]; [reflexivity|].
  cbn [validate_spec]. rewrite step_ref by (rewrite Ht; simpl; intuition discriminate).
  rewrite Ht. pose proof (union_diverges X sch m Hm f ctx v) as Hu. unfold validate, validate_named in Hu.
  destruct (find_type m "Union"); [exact Hu|discriminate].
Qed.

Lemma unknown_end_rejected n ctx ts ts' v : refers_chain sch n ts ts' ->
  ~ In (ts_type ts') kinds -> (forall t, ~ defines sch (ts_type ts') t) ->
  returns X m ctx ts v (Err (mkVE (ENoSuchType (ts_type ts')) (Some ctx))).
Proof.
  intros Hc Hk Hd. apply (chain_returns X sch m Hm n ctx ts ts' v _ Hc).
  apply (unknown_returns X sch m Hm); assumption.
Qed.

Lemma structs_closed ctx n ts v ts' v' : vwf v -> defines sch n ts ->
  (exists fuel, validate X m fuel ctx n v = Ok tt) ->
  at_pos sch ts v ts' v' -> ts_type ts' = "Struct" ->
  exists l, v' = VMap l
    /\ (forall k, In k (map fst l) -> exists f, In f (ts_fields ts') /\ fd_name f = k)
    /\ (forall f, In f (ts_fields ts') -> fd_required f = true -> In (fd_name f) (map fst l))
    /\ (forall f x c, In f (ts_fields ts') -> In (fd_name f, x) l ->
          exists fuel, validate_spec X m fuel c (fd_spec f) x = Ok tt).
Proof.
  intros Hw Hd H Hp Hk. destruct (at_pos_accepted _ _ _ _ _ _ Hw Hd H Hp) as [Ha Hw'].
  apply accepts_struct_inv in Ha; [|exact Hk]. destruct Ha as (l & -> & [H1 H2] & H3).
  exists l. split; [reflexivity|]. split; [exact H1|]. split; [exact H2|].
  intros f x c Hf Hx. apply (validate_spec_iff X sch m Hm); [|auto].
  inversion Hw' as [w _ Hn| |l0 _ Hl]; subst; [now specialize (Hn l)|].
  rewrite Forall_forall in Hl. exact (Hl _ Hx).
Qed.

Lemma collections ctx n ts v ts' v' : vwf v -> defines sch n ts ->
  (exists fuel, validate X m fuel ctx n v = Ok tt) ->
  at_pos sch ts v ts' v' ->
  (ts_type ts' = "Array" -> exists l, v' = VArr l
     /\ at_least (length l) (ts_minsize ts') /\ at_most (length l) (ts_maxsize ts')
     /\ forall x c, In x l -> exists fuel, validate X m fuel c (ts_items ts') x = Ok tt) /\
  (ts_type ts' = "Map" -> exists l, v' = VMap l
     /\ at_least (length l) (ts_minsize ts') /\ at_most (length l) (ts_maxsize ts')
     /\ forall k x c, In (k, x) l -> exists fuel, validate X m fuel c (ts_items ts') x = Ok tt).
Proof.
  intros Hw Hd H Hp. destruct (at_pos_accepted _ _ _ _ _ _ Hw Hd H Hp) as [Ha Hw'].
  assert (Hany : defines sch "Any" (ts_of "Any")) by (apply builtin_defines; simpl; tauto).
  split; intro Hk.
  - apply accepts_array_inv in Ha; [|exact Hk]. destruct Ha as (l & -> & [H1 H2] & H3).
    exists l. split; [reflexivity|]. split; [exact H1|]. split; [exact H2|]. intros x c Hx.
    assert (Hwx : vwf x).
    { inversion Hw' as [w Hn _|l0 Hl|]; subst; [now specialize (Hn l)|]. rewrite Forall_forall in Hl. auto. }
    apply (validate_iff X sch m Hm); [exact Hwx|].
    destruct H3 as [H3|(t & _ & Hdt & H3)].
    + rewrite H3. exists (ts_of "Any"). split; [exact Hany|]. now apply ac_any.
    + exists t. auto.
  - apply accepts_map_inv in Ha; [|exact Hk]. destruct Ha as (l & -> & [H1 H2] & H3).
    exists l. split; [reflexivity|]. split; [exact H1|]. split; [exact H2|]. intros k x c Hx.
    assert (Hwx : vwf x).
    { inversion Hw' as [w _ Hn| |l0 _ Hl]; subst; [now specialize (Hn l)|]. rewrite Forall_forall in Hl. exact (Hl _ Hx). }
    apply (validate_iff X sch m Hm); [exact Hwx|].
    destruct H3 as [H3|(t & _ & Hdt & H3)].
    + rewrite H3. exists (ts_of "Any"). split; [exact Hany|]. now apply ac_any.
    + exists t. eauto.
Qed.

Lemma string_constraints ctx n ts v ts' v' : vwf v -> defines sch n ts ->
  (exists fuel, validate X m fuel ctx n v = Ok tt) ->
  at_pos sch ts v ts' v' -> ts_type ts' = "String" ->
  exists s, text_of v' s
    /\ at_least (String.length s) (ts_minsize ts') /\ at_most (String.length s) (ts_maxsize ts')
    /\ (forall vs, ts_values ts' = Some vs -> In s vs)
    /\ (ts_values ts' = None -> pattern_ok X (ts_pattern ts') s).
Proof.
  intros Hw Hd H Hp Hk. destruct (at_pos_accepted _ _ _ _ _ _ Hw Hd H Hp) as [Ha _].
  apply accepts_string_inv in Ha; [|exact Hk]. destruct Ha as (s & H1 & [H2 H3] & H4 & H5). eauto 10.
Qed.

Lemma uuid_validate_agrees ctx ts s v fuel : ts_type ts = "UUID" -> text_of v s ->
  (validate_spec X m (S fuel) ctx ts v = Ok tt <-> parse_uuid s <> EmptyString).
Proof.
  intros Hk Hs. cbn [validate_spec]. rewrite step_uuid by exact Hk. rewrite validate_uuid_ok, parse_uuid_shape.
  split.
  - intros [[s' ->]|(s' & Hs' & Hu)]; [destruct Hs; discriminate|].
    assert (s' = s) as -> by (destruct Hs as [-> | ->], Hs' as [E|E]; congruence). exact Hu.
  - intro Hu. right. eauto.
Qed.

Lemma unit_validate_agrees ctx ts a u : ts_type ts = "UnitValue" -> smem " " a = false ->
  3 <= String.length a -> u <> EmptyString ->
  ((exists fuel, validate_spec X m fuel ctx ts (VPStr (a +++ String " " u)) = Ok tt) <->
   exists d, parse_unitvalue X (a +++ String " " u) = Some (mkUV d u)
     /\ (exists fuel, validate X m fuel ctx (ts_value ts) (VDec d) = Ok tt)
     /\ (exists fuel, validate X m fuel ctx (ts_unit ts) (VStr u) = Ok tt)).
Proof.
  intros Hk Hsp Hl Hu.
  assert (Hw : forall w, (forall l, w <> VArr l) -> (forall l, w <> VMap l) -> vwf w) by (intros; now apply wf_leaf).
  rewrite (validate_spec_iff X sch m Hm) by (apply Hw; discriminate).
  assert (Hane : a <> EmptyString) by (intros ->; simpl in Hl; lia).
  split.
  - intro Ha. apply accepts_unit_inv in Ha; [|exact Hk].
    destruct Ha as (a' & u' & d & ts1 & ts2 & E & Hsp' & Hl' & Hd & H1 & H2 & H3 & H4).
    injection E as E.
    assert (Hc : cut " " (a +++ String " " u) = Some (a, u)) by (apply cut_Some; auto).
    assert (Hc' : cut " " (a +++ String " " u) = Some (a', u')) by (rewrite E; apply cut_Some; auto).
    rewrite Hc in Hc'. injection Hc' as <- <-.
    exists d. split; [apply parse_unitvalue_iff; eauto 10|].
    split; (apply (validate_iff X sch m Hm); [apply Hw; discriminate|eauto]).
  - intros (d & Hp & Hv & Hvu). apply parse_unitvalue_iff in Hp. destruct Hp as (a' & E & Hsp' & _ & _ & Hd).
    assert (Hc : cut " " (a +++ String " " u) = Some (a, u)) by (apply cut_Some; auto).
    assert (Hc' : cut " " (a +++ String " " u) = Some (a', u)) by (rewrite E; apply cut_Some; auto).
    rewrite Hc in Hc'. injection Hc' as <-.
    apply (validate_iff X sch m Hm) in Hv; [|apply Hw; discriminate].
    apply (validate_iff X sch m Hm) in Hvu; [|apply Hw; discriminate].
    destruct Hv as (t1 & D1 & A1). destruct Hvu as (t2 & D2 & A2). eapply ac_unit; eauto.
Qed.
End V.

Lemma validate_no_panic X m fuel ctx n v : validate X m fuel ctx n v <> Panic.
Proof.
  unfold validate, validate_named. destruct (find_type m n); [apply no_panic|discriminate].
Qed.
Lemma validate_verdict_unique X m f1 f2 ctx n v :
  validate X m f1 ctx n v <> OutOfFuel -> validate X m f2 ctx n v <> OutOfFuel ->
  validate X m f1 ctx n v = validate X m f2 ctx n v.
Proof.
  unfold validate, validate_named. destruct (find_type m n) as [td|]; [|reflexivity].
  intros H1 H2. eapply (returns_fun X m ctx (td_spec td) v); split; eauto.
Qed.

Lemma parse_uuid_text s : parse_uuid s <> EmptyString -> parse_uuid s = s.
Proof. unfold parse_uuid. destruct (negb _); [congruence|]. destruct (negb _); congruence. Qed.
Lemma uuid_documented s : uuid_shape hex_digit s -> parse_uuid s = s.
Proof.
  intro H. apply parse_uuid_text, parse_uuid_shape.
  destruct H as (a & b & c & d & e & H1 & H2 & H3 & H4 & H5 & H6 & _). exists a, b, c, d, e. auto 10.
Qed.
Lemma uuid_not_hex : exists s, parse_uuid s = s /\ s <> EmptyString /\ ~ uuid_shape hex_digit s.
Proof.
  exists "zzzzzzzz-zzzz-zzzz-zzzz-zzzzzzzzzzzz". split; [reflexivity|]. split; [discriminate|].
  intros (a & b & c & d & e & H1 & H2 & _ & _ & _ & _ & H).
  destruct a as [|x a]; [discriminate|]. simpl in H1. injection H1 as <- _.
  destruct (H (String "z" a) "z"%char) as (n & Hn & Hx).
  - now left.
  - exists EmptyString, a. reflexivity.
  - assert (E : nat_of_ascii "z" = 122) by reflexivity. lia.
Qed.
Lemma demo_uuid : uuid_shape hex_digit "1ce437b0-1dd2-11b2-81ef-003ee1be85f9".
Proof.
  exists "1ce437b0", "1dd2", "11b2", "81ef", "003ee1be85f9". split; [reflexivity|].
  repeat (split; [reflexivity|]).
  intros g x Hg (l & r & Hx).
  set (hexb := fun c => ((48 <=? nat_of_ascii c) && (nat_of_ascii c <=? 57))
    || ((65 <=? nat_of_ascii c) && (nat_of_ascii c <=? 70)) || ((97 <=? nat_of_ascii c) && (nat_of_ascii c <=? 102))).
  assert (Hb : sforall hexb g = true).
  { simpl in Hg. repeat (destruct Hg as [<-|Hg]; [vm_compute; reflexivity|]). destruct Hg. }
  assert (Hbx : hexb x = true).
  { subst g. clear Hg. induction l as [|y l IH]; cbn [sforall String.append] in Hb;
      apply andb_true_iff in Hb; destruct Hb as [Hb1 Hb2]; auto. }
  exists (nat_of_ascii x). split; [reflexivity|]. unfold hexb in Hbx.
  rewrite !orb_true_iff, !andb_true_iff, !Nat.leb_le in Hbx. lia.
Qed.

(** ** Witnesses *)
Definition no_schema : schema := schema_of [] [].
Definition no_model : model := mkModel no_schema base_index [].
Lemma no_model_ok : new_model no_schema = Ok no_model.
Proof. vm_compute. reflexivity. Qed.

Lemma vwf_leaf_dec d : vwf (VDec d). Proof. apply wf_leaf; discriminate. Qed.
Lemma vwf_leaf_pstr s : vwf (VPStr s). Proof. apply wf_leaf; discriminate. Qed.

Lemma dec_le_Z a b : dec_le (DFin a 0) (DFin b 0) <-> (a <= b)%Z.
Proof.
  rewrite dec_le_min. change (0 - Z.min 0 0)%Z with 0%Z. change (2 ^ 0)%Z with 1%Z. lia.
Qed.

Lemma accepts_nonmember : exists sch m n v, new_model sch = Ok m /\ vwf v /\
  forall X ctx, validate X m 1 ctx n v = Ok tt /\ forall ts, defines sch n ts -> ~ member X sch ts v.
Proof.
  exists no_schema, no_model, "Int8", (num 300). split; [exact no_model_ok|]. split; [apply vwf_leaf_dec|].
  intros X ctx. split; [apply (integer_range_unchecked X no_schema no_model no_model_ok); simpl; tauto|].
  intros ts Hd Hmem.
  assert (E : ts = ts_of "Int8").
  { apply (defines_fun _ _ no_model_ok "Int8"); [exact Hd|]. apply builtin_defines. simpl. tauto. }
  subst ts.
  assert (K : forall ts v, member X no_schema ts v -> ts = ts_of "Int8" -> v = num 300 ->
     forall lo hi, int_range (ts_type ts) = Some (lo, hi) -> whole_in (DFin 300 0) lo hi).
  { intros ts v [] E1 E2; subst; try discriminate.
    - injection E2 as ->. assumption.
    - match goal with R : refers _ _ _ |- _ => destruct R as [R _]; exfalso; apply R; simpl; tauto end. }
  destruct (K _ _ Hmem eq_refl eq_refl (-128)%Z 127%Z eq_refl) as (z & Hz & H1 & H2).
  apply dec_le_Z in H1, H2. lia.
Qed.

Definition price_schema : schema :=
  schema_of [tdef "Price" (ts_unitvalue "Decimal" "Currency"); tdef "Currency" (ts_enum ["USD"; "EUR"]);
             tdef "Amount" (ts_unitvalue "Decimal" "String")] [].
Definition price_model : model := match new_model price_schema with Ok m => m | _ => no_model end.
Lemma price_model_ok : new_model price_schema = Ok price_model.
Proof. vm_compute. reflexivity. Qed.

Lemma declared_defines sch td : In td (sc_types sch) -> defines sch (td_name td) (td_spec td).
Proof. intro H. exists td. split; [right; auto|reflexivity]. Qed.

Lemma currency_defines : defines price_schema "Currency" (ts_enum ["USD"; "EUR"]).
Proof. apply (declared_defines price_schema (tdef "Currency" (ts_enum ["USD"; "EUR"]))). simpl. tauto. Qed.

Lemma short_unit_refused X ts s fuel ctx : ts_type ts = "UnitValue" -> s = "5 USD" ->
  validate_spec X price_model fuel ctx ts (VPStr s) <> Ok tt.
Proof.
  intros Hk -> H. destruct fuel as [|f]; [discriminate|]. cbn [validate_spec] in H.
  rewrite step_unit in H by exact Hk. unfold validate_unitvalue in H. simpl in H. discriminate.
Qed.

Lemma refuses_member : exists X sch m n ts v, new_model sch = Ok m /\ vwf v /\ literal v /\
  defines sch n ts /\ member X sch ts v /\ forall fuel ctx, validate X m fuel ctx n v <> Ok tt.
Proof.
  exists demo_ext, price_schema, price_model, "Price", (ts_unitvalue "Decimal" "Currency"), (VPStr "5 USD").
  split; [exact price_model_ok|]. split; [apply vwf_leaf_pstr|]. split; [apply li_leaf; discriminate|].
  split; [apply (declared_defines price_schema (tdef "Price" _)); simpl; tauto|]. split.
  - eapply me_unit with (a := "5") (u := "USD") (d := DFin 5 0) (ts1 := ts_of "Decimal") (ts2 := ts_enum ["USD"; "EUR"]);
      try reflexivity; try discriminate.
    + now right.
    + apply builtin_defines. simpl. tauto.
    + apply me_number; [simpl; tauto|split; discriminate|discriminate].
    + exact currency_defines.
    + eapply me_enum; [reflexivity|now left|]. exists (elt "USD"). simpl. auto.
  - intros fuel ctx. unfold validate, validate_named.
    change (find_type price_model "Price") with (Some (tdef "Price" (ts_unitvalue "Decimal" "Currency"))).
    cbn [td_spec tdef]. apply short_unit_refused; reflexivity.
Qed.

Lemma unit_short_refused : exists X sch m ts s d u, new_model sch = Ok m /\ ts_type ts = "UnitValue" /\
  parse_unitvalue X s = Some (mkUV d u) /\
  (forall ctx, validate X m 2 ctx (ts_value ts) (VDec d) = Ok tt /\ validate X m 2 ctx (ts_unit ts) (VStr u) = Ok tt) /\
  forall fuel ctx, validate_spec X m fuel ctx ts (VPStr s) <> Ok tt.
Proof.
  exists demo_ext, price_schema, price_model, (ts_unitvalue "Decimal" "Currency"), "5 USD", (DFin 5 0), "USD".
  split; [exact price_model_ok|]. split; [reflexivity|]. split; [reflexivity|]. split.
  - intro ctx. split; vm_compute; reflexivity.
  - intros fuel ctx. now apply short_unit_refused.
Qed.
Lemma unit_empty_accepted : exists X sch m ts s, new_model sch = Ok m /\ ts_type ts = "UnitValue" /\
  parse_unitvalue X s = None /\ forall ctx, validate_spec X m 3 ctx ts (VPStr s) = Ok tt.
Proof.
  exists demo_ext, price_schema, price_model, (ts_unitvalue "Decimal" "String"), "100 ".
  split; [exact price_model_ok|]. split; [reflexivity|]. split; [reflexivity|]. intro ctx. vm_compute. reflexivity.
Qed.

Definition loop_schema : schema := schema_of [tdef "Loop" (ts_of "Pool"); tdef "Pool" (ts_of "Loop")] [].
Definition loop_model : model := match new_model loop_schema with Ok m => m | _ => no_model end.
Lemma loop_model_ok : new_model loop_schema = Ok loop_model.
Proof. vm_compute. reflexivity. Qed.
Lemma alias_cycle_diverges : exists sch m, new_model sch = Ok m /\
  forall X fuel ctx v, validate X m fuel ctx "Loop" v = OutOfFuel.
Proof.
  exists loop_schema, loop_model. split; [exact loop_model_ok|]. intros X fuel ctx v.
  assert (K : forall f ctx v, validate_spec X loop_model f ctx (ts_of "Pool") v = OutOfFuel
                           /\ validate_spec X loop_model f ctx (ts_of "Loop") v = OutOfFuel).
  { induction f as [|f IH]; intros c w; [split; reflexivity|]. cbn [validate_spec].
    rewrite !step_ref by (simpl; intuition discriminate). split; apply IH. }
  apply (K fuel).
Qed.

Definition keyed_schema : schema := schema_of [tdef "ByUUID" (ts_map "UUID" "Decimal")] [].
Definition keyed_model : model := match new_model keyed_schema with Ok m => m | _ => no_model end.
Lemma keyed_model_ok : new_model keyed_schema = Ok keyed_model.
Proof. vm_compute. reflexivity. Qed.
Lemma map_keys_unchecked : exists sch m n ts v k, new_model sch = Ok m /\ vwf v /\ defines sch n ts /\
  ts_type ts = "Map" /\ v = VMap [(k, num 1)] /\
  forall X ctx, validate X m 2 ctx n v = Ok tt /\ validate X m 1 ctx (ts_keys ts) (VStr k) <> Ok tt.
Proof.
  exists keyed_schema, keyed_model, "ByUUID", (ts_map "UUID" "Decimal"), (VMap [("nope", num 1)]), "nope".
  split; [exact keyed_model_ok|]. split.
  { apply wf_map; [repeat constructor; simpl; tauto|]. repeat constructor; discriminate. }
  split; [apply (declared_defines keyed_schema (tdef "ByUUID" _)); simpl; tauto|].
  split; [reflexivity|]. split; [reflexivity|]. intros X ctx. split; [vm_compute; reflexivity|]. vm_compute. discriminate.
Qed.

Lemma pattern_ignored : exists X sch m n ts s, new_model sch = Ok m /\ defines sch n ts /\
  ts_type ts = "String" /\ ts_pattern ts <> EmptyString /\
  (forall ctx, validate X m 1 ctx n (VPStr s) = Ok tt) /\ ~ pattern_ok X (ts_pattern ts) s.
Proof.
  exists demo_ext, demo_schema, demo_model, "Both", (ts_str "b" (Some ["a"; "b"])), "a".
  split; [exact demo_model_ok|].
  split; [apply (declared_defines demo_schema (tdef "Both" _)); simpl; tauto|].
  split; [reflexivity|]. split; [discriminate|]. split; [intro ctx; vm_compute; reflexivity|].
  intros [H|(f & Hf & Hs)]; [discriminate|]. simpl in Hf. injection Hf as <-. discriminate.
Qed.

(** ** Facts for the examples *)
Definition point_spec := ts_struct [fld "x" true (ts_of "Decimal"); fld "y" false (ts_of "Coord")].
Definition coord_spec := ts_num "Decimal" (Some (DFin 0 0)) (Some (DFin 10 0)).
Lemma point_defines : defines demo_schema "Point" point_spec.
Proof. apply (declared_defines demo_schema (tdef "Point" point_spec)). simpl. tauto. Qed.
Lemma coord_defines : defines demo_schema "Coord" coord_spec.
Proof. apply (declared_defines demo_schema (tdef "Coord" coord_spec)). simpl. tauto. Qed.
Lemma spot_defines : defines demo_schema "Spot" (ts_of "Point").
Proof. apply (declared_defines demo_schema (tdef "Spot" (ts_of "Point"))). simpl. tauto. Qed.
Lemma where_defines : defines demo_schema "Where" (ts_of "Spot").
Proof. apply (declared_defines demo_schema (tdef "Where" (ts_of "Spot"))). simpl. tauto. Qed.
Lemma lost_defines : defines demo_schema "Lost" (ts_of "Nowhere").
Proof. apply (declared_defines demo_schema (tdef "Lost" (ts_of "Nowhere"))). simpl. tauto. Qed.

Lemma decimal_leads ts ts' : ts_type ts = "Decimal" -> leads demo_schema ts ts' -> ts' = ts.
Proof.
  intros Hk H. inversion H; subst; try congruence.
  - match goal with R : refers _ _ _ |- _ => destruct R as [R _]; exfalso; apply R; rewrite Hk; simpl; tauto end.
  - rewrite Hk in *. simpl in *. intuition discriminate.
Qed.
Lemma refers_leads_inv ts t ts' : refers demo_schema ts t -> leads demo_schema ts ts' ->
  ts' = ts \/ leads demo_schema t ts'.
Proof.
  intros [Hk Hd] H. inversion H as [|? t1 ? [_ Hd1] Hl|? f ? E|? ? ? E|? ? ? E]; subst.
  - now left.
  - right. now rewrite (defines_fun _ _ demo_model_ok _ _ _ Hd Hd1).
  - exfalso. apply Hk. rewrite E. simpl. tauto.
  - exfalso. apply Hk. simpl in E |- *. intuition.
  - exfalso. apply Hk. rewrite E. simpl. tauto.
Qed.
Lemma point_leads ts' : leads demo_schema (ts_of "Point") ts' ->
  In ts' [ts_of "Point"; point_spec; ts_of "Decimal"; ts_of "Coord"; coord_spec].
Proof.
  intro H. apply (refers_leads_inv _ point_spec) in H; [|split; [simpl; intuition discriminate|exact point_defines]].
  destruct H as [->|H]; [now left|].
  inversion H as [|? t1 ? [E _] Hl|? f ? E Hf Hl|? ? ? E|? ? ? E]; subst.
  - simpl. tauto.
  - exfalso. apply E. simpl. tauto.
  - simpl in Hf. destruct Hf as [<-|[<-|[]]]; simpl in Hl.
    + apply decimal_leads in Hl; [|reflexivity]. subst. simpl. tauto.
    + apply (refers_leads_inv _ coord_spec) in Hl; [|split; [simpl; intuition discriminate|exact coord_defines]].
      destruct Hl as [->|Hl]; [simpl; tauto|]. apply decimal_leads in Hl; [|reflexivity]. subst. simpl. tauto.
  - simpl in E. intuition discriminate.
  - discriminate.
Qed.

Lemma demo_point_ends : forall ts', leads demo_schema (ts_of "Point") ts' -> names_end demo_schema ts'.
Proof.
  assert (Hstop : forall ts, In (ts_type ts) kinds -> names_end demo_schema ts).
  { intros ts Hk. constructor. intros b [Hb _]. contradiction. }
  assert (Hone : forall ts t, refers demo_schema ts t -> In (ts_type t) kinds -> names_end demo_schema ts).
  { intros ts t [Hk Hd] Ht. constructor. intros b [_ Hb].
    rewrite (defines_fun _ _ demo_model_ok _ _ _ Hb Hd). now apply Hstop. }
  intros ts' H. apply point_leads in H. simpl in H.
  destruct H as [<-|[<-|[<-|[<-|[<-|[]]]]]].
  - apply (Hone _ point_spec); [split; [simpl; intuition discriminate|exact point_defines]|simpl; tauto].
  - apply Hstop. simpl. tauto.
  - apply Hstop. simpl. tauto.
  - apply (Hone _ coord_spec); [split; [simpl; intuition discriminate|exact coord_defines]|simpl; tauto].
  - apply Hstop. simpl. tauto.
Qed.

Lemma demo_point_plain :
  let ts := ts_of "Point" in
  defines demo_schema "Spot" ts /\ literal demo_point
  /\ forall ts', leads demo_schema ts ts' -> no_lax demo_ext demo_schema ts' /\ no_strict ts'.
Proof.
  split; [exact spot_defines|]. split.
  - apply li_map. repeat constructor; discriminate.
  - intros ts' H. apply point_leads in H. simpl in H.
    destruct H as [<-|[<-|[<-|[<-|[<-|[]]]]]];
      (split; [split; [simpl; intuition discriminate|repeat split; discriminate]|split; discriminate]).
Qed.

Lemma demo_points_struct : validate demo_ext demo_model 9 [] "Points" (VArr [demo_point]) = Ok tt
  /\ at_pos demo_schema (ts_array "Point" None (Some 2%Z)) (VArr [demo_point]) point_spec demo_point.
Proof.
  split; [vm_compute; reflexivity|].
  eapply ap_item; [reflexivity|discriminate|exact point_defines|now left|]. apply ap_here.
Qed.
Lemma demo_points_pos : validate demo_ext demo_model 9 [] "Points" (VArr [demo_point]) = Ok tt
  /\ at_pos demo_schema (ts_array "Point" None (Some 2%Z)) (VArr [demo_point]) coord_spec (num 7).
Proof.
  split; [vm_compute; reflexivity|].
  eapply ap_item; [reflexivity|discriminate|exact point_defines|now left|].
  eapply (ap_field _ _ _ (fld "y" false (ts_of "Coord"))); [reflexivity|simpl; tauto|simpl; tauto|].
  eapply ap_ref; [split; [simpl; intuition discriminate|exact coord_defines]|]. apply ap_here.
Qed.
Lemma demo_chain : exists ts', refers_chain demo_schema 3 (ts_of "Where") ts' /\ ts_type ts' = "Struct".
Proof.
  exists point_spec. split; [|reflexivity].
  eapply rc_S; [split; [simpl; intuition discriminate|exact where_defines]|].
  eapply rc_S; [split; [simpl; intuition discriminate|exact spot_defines]|].
  eapply rc_S; [split; [simpl; intuition discriminate|exact point_defines]|]. apply rc_0.
Qed.
Lemma demo_unknown_chain : refers_chain demo_schema 1 (ts_of "Lost") (ts_of "Nowhere")
  /\ ~ In "Nowhere" kinds /\ forall t, ~ defines demo_schema "Nowhere" t.
Proof.
  split; [eapply rc_S; [split; [simpl; intuition discriminate|exact lost_defines]|apply rc_0]|].
  split; [simpl; intuition discriminate|].
  intros t Hd. apply (find_type_defines _ _ demo_model_ok) in Hd. destruct Hd as (td & E & _). vm_compute in E. discriminate.
Qed.
