(** The validator's value set against the natural reading of definitions; order of entries;
    unit values; and a simple criterion for termination. *)
From Verif Require Import GoStr Outcome Value Schema Scalars Time Model SpecTime SpecModel TimeFacts ModelFacts.
From Coq Require Import ZifyBool ZifyNat Permutation.

(** ** [vperm] is symmetric and keeps keys distinct *)
Lemma vperm_sym v : forall v', vperm v v' -> vperm v' v.
Proof.
  induction v as [| | | |s| | | | | | | |l IH|l IH] using value_ind'; intros v' H;
    try (inversion H; subst; apply vp_refl).
  - inversion H as [|l1 l2 Hf|]; subst; [apply vp_refl|]. apply vp_arr.
    clear H. revert IH. induction Hf as [|a b la lb Hab Hf IHf]; intro IH; constructor;
      inversion IH; subst; auto.
  - inversion H as [| |l1 l2 l3 Hf Hp]; subst; [apply vp_refl|].
    assert (Hs : Forall2 (fun a b => fst a = fst b /\ vperm (snd a) (snd b)) l2 l).
    { clear H Hp. revert IH. induction Hf as [|a b la lb [He Hab] Hf IHf]; intro IH; constructor;
        inversion IH; subst; auto. }
    destruct (Permutation_Forall2 Hp Hs) as (l' & Hp' & Hf').
    eapply vp_map; [exact Hf'|]. now apply Permutation_sym.
Qed.

Lemma vperm_wf v : forall v', vwf v -> vperm v v' -> vwf v'.
Proof.
  induction v as [| | | |s| | | | | | | |l IH|l IH] using value_ind'; intros v' Hw H;
    try (inversion H; subst; exact Hw).
  - inversion H as [|l1 l2 Hf|]; subst; [exact Hw|].
    inversion Hw as [w Hw1 _|l0 Hl|]; subst; [now specialize (Hw1 l)|]. apply wf_arr.
    clear H Hw. revert IH Hl. induction Hf as [|a b la lb Hab Hf IHf]; intros IH Hl; constructor;
      inversion IH; inversion Hl; subst; auto.
  - inversion H as [| |l1 l2 l3 Hf Hp]; subst; [exact Hw|].
    inversion Hw as [w _ Hw2| |l0 Hn Hl]; subst; [now specialize (Hw2 l)|].
    assert (Hk : keys l2 = keys l).
    { clear -Hf. induction Hf as [|a b la lb [He _] Hf IHf]; [reflexivity|]. simpl. now rewrite He, IHf. }
    assert (Hv : Forall (fun kv => vwf (snd kv)) l2).
    { clear H Hp Hw Hk Hn. revert IH Hl. induction Hf as [|a b la lb [He Hab] Hf IHf]; intros IH Hl; constructor;
        inversion IH; inversion Hl; subst; eauto. }
    apply wf_map.
    + eapply Permutation_NoDup; [apply (Permutation_map fst); exact Hp|]. fold (keys l2). now rewrite Hk.
    + rewrite Forall_forall in Hv |- *. intros x Hx. apply Hv.
      eapply Permutation_in; [apply Permutation_sym; exact Hp|exact Hx].
Qed.

Section M.
Variable X : ext.
Variable sch : schema.
Variable m : model.
Hypothesis Hm : new_model sch = Ok m.

Lemma order_independent v v' ctx n : vwf v -> vperm v v' ->
  ((exists f, validate X m f ctx n v = Ok tt) <-> (exists f, validate X m f ctx n v' = Ok tt)).
Proof.
  intros Hw Hp. pose proof (vperm_wf _ _ Hw Hp) as Hw'.
  rewrite (validate_iff X sch m Hm) by exact Hw. rewrite (validate_iff X sch m Hm) by exact Hw'.
  split; intros (ts & Hd & Ha); exists ts; (split; [exact Hd|]).
  - eapply vperm_accepts; eauto.
  - eapply vperm_accepts; [exact Ha|]. now apply vperm_sym.
Qed.

(** ** accepts -> member where no laxity applies *)
Definition no_lax (ts : typespec) : Prop :=
  ~ In (ts_type ts) ["Int8"; "Int16"; "Int32"; "Int64"; "Bytes"; "UUID"]
  /\ (ts_type ts = "String" -> ts_values ts = None \/ ts_pattern ts = EmptyString)
  /\ (ts_type ts = "Map" -> ts_keys ts = "String")
  /\ (ts_type ts = "UnitValue" -> forall ts2, defines sch (ts_unit ts) ts2 -> ~ accepts X sch ts2 (VStr "")).

Lemma builtin_defines n : In n builtin_names -> defines sch n (ts_of n).
Proof. intro H. exists (mkTD n "" [] (ts_of n)). split; [now left|reflexivity]. Qed.

Lemma accepts_member ts v : accepts X sch ts v ->
  (forall ts', leads sch ts ts' -> no_lax ts') -> member X sch ts v.
Proof.
  induction 1 as
    [ts t Hk | ts s t Hk Ht Hr | ts v s Hk Hs Hsz Hv Hp | ts l Hk Hc Hf IH
    | ts ts' l Hk Hany Hd Hx IH Hsz | ts l Hk Hany Hsz
    | ts ts' l Hk Hany Hd Hx IH Hsz | ts l Hk Hany Hsz
    | ts d Hk Hw | ts b Hk | ts b Hk | ts v s Hk Hs Hne He
    | ts s Hk | ts v s Hk Hs Hu
    | ts a u d ts1 ts2 Hk Hsp Hlen Hdec Hd1 Ha1 IH1 Hd2 Ha2 IH2
    | ts v Hk | ts v Hk | ts ts' v Hr Ha IH ]; intro Hall;
    pose proof (Hall ts (le_here _ _)) as (N1 & N2 & N3 & N4).
  - now apply me_time.
  - eapply me_time_text; eauto. now right.
  - eapply me_string; eauto. destruct (ts_values ts) as [vs|] eqn:E; [|auto].
    destruct (N2 Hk) as [Hn|Hn]; [discriminate|]. left. exact Hn.
  - apply me_struct; auto. intros f x Hff Hx. apply (IH f x Hff Hx).
    intros ts' Hl. apply Hall. eapply le_field; eauto.
  - eapply me_array; eauto. intros x Hxl. apply (IH x Hxl). intros t Hl. apply Hall.
    eapply le_item; eauto. rewrite Hk. now left.
  - eapply me_array; eauto.
    + rewrite Hany. apply builtin_defines. simpl. tauto.
    + intros x _. now apply me_any.
  - eapply me_map with (ts1 := ts_of "String"); eauto.
    + rewrite (N3 Hk). apply builtin_defines. simpl. tauto.
    + intros k x _. eapply me_string; [reflexivity|now left|split; exact I|discriminate|left; reflexivity].
    + intros k x Hxl. apply (IH k x Hxl). intros t Hl. apply Hall.
      eapply le_item; eauto. rewrite Hk. right. now left.
  - eapply me_map with (ts1 := ts_of "String"); eauto.
    + rewrite (N3 Hk). apply builtin_defines. simpl. tauto.
    + rewrite Hany. apply builtin_defines. simpl. tauto.
    + intros k x _. eapply me_string; [reflexivity|now left|split; exact I|discriminate|left; reflexivity].
    + intros k x _. now apply me_any.
  - apply me_number; auto. intros lo hi Hir. exfalso. apply N1.
    simpl in Hk. repeat (destruct Hk as [Hk|Hk]; [rewrite <- Hk in Hir |- *; first [discriminate|simpl; tauto]|]). destruct Hk.
  - now apply me_bool.
  - now apply me_pbool.
  - eapply me_enum; eauto.
  - now apply me_uuid.
  - exfalso. apply N1. rewrite Hk. simpl. tauto.
  - eapply me_unit; eauto.
    + now right.
    + intros ->. exact (N4 Hk _ Hd2 Ha2).
    + apply IH1. intros t Hl. apply Hall. apply (le_unit _ _ ts1); auto.
    + apply IH2. intros t Hl. apply Hall. apply (le_unit _ _ ts2); auto.
  - exfalso. apply N1. rewrite Hk. simpl. tauto.
  - now apply me_any.
  - eapply me_ref; eauto. apply IH. intros t Hl. apply Hall. eapply le_ref; eauto.
Qed.

(** ** member -> accepts where no strictness applies *)
Definition no_strict (ts : typespec) : Prop :=
  ts_type ts <> "UnitValue"
  /\ (ts_type ts = "Enum" -> forall e, In e (ts_elements ts) -> ee_symbol e <> EmptyString).

(** No Go [string] inside (the parser only builds [*string]). *)
Inductive literal : value -> Prop :=
| li_leaf v : (forall s, v <> VStr s) -> (forall l, v <> VArr l) -> (forall l, v <> VMap l) -> literal v
| li_arr l : Forall literal l -> literal (VArr l)
| li_map l : Forall (fun kv => literal (snd kv)) l -> literal (VMap l).

Lemma member_accepts ts v : member X sch ts v -> literal v ->
  (forall ts', leads sch ts ts' -> no_strict ts') -> accepts X sch ts v.
Proof.
  induction 1 as
    [ts t Hk | ts v s t Hk Hs Ht Hr | ts v s Hk Hs Hsz Hv Hp | ts l Hk Hc Hf IH
    | ts ts' l Hk Hd Hx IH Hsz
    | ts ts1 ts2 l Hk Hd1 Hd2 Hkey IHk Hx IH Hsz
    | ts d Hk Hw Hi | ts b Hk | ts b Hk | ts v s Hk Hs He
    | ts s Hk | ts v s Hk Hs Hu
    | ts v a u d ts1 ts2 Hk Hs Hsp Hlen Hdec Hd1 Ha1 IH1 Hd2 Ha2 IH2
    | ts v s Hk Hs Hsz | ts v Hk | ts ts' v Hr Ha IH ]; intros Hlit Hall;
    pose proof (Hall ts (le_here _ _)) as (N1 & N2).
  - now apply ac_time.
  - destruct Hs as [-> | ->]; [inversion Hlit as [w Hw _ _| |]; now specialize (Hw s)|].
    eapply ac_time_text; eauto.
  - eapply ac_string; eauto.
  - apply ac_struct; auto. intros f x Hff Hxl. apply (IH f x Hff Hxl).
    + inversion Hlit as [w _ _ Hw| |l0 Hl]; subst; [now specialize (Hw l)|].
      rewrite Forall_forall in Hl. exact (Hl _ Hxl).
    + intros t Hl. apply Hall. eapply le_field; eauto.
  - inversion Hlit as [w _ Hw _|l0 Hl|]; subst; [now specialize (Hw l)|].
    rewrite Forall_forall in Hl.
    destruct (string_dec (ts_items ts) "Any") as [Ea|Ea]; [now apply ac_array_any|].
    eapply ac_array; eauto. intros x Hxl. apply (IH x Hxl); [auto|].
    intros t Ht. apply Hall. eapply le_item; eauto. rewrite Hk. now left.
  - inversion Hlit as [w _ _ Hw| |l0 Hl]; subst; [now specialize (Hw l)|].
    rewrite Forall_forall in Hl.
    destruct (string_dec (ts_items ts) "Any") as [Ea|Ea]; [now apply ac_map_any|].
    eapply ac_map; eauto. intros k x Hxl. apply (IH k x Hxl); [exact (Hl _ Hxl)|].
    intros t Ht. apply Hall. eapply le_item; eauto. rewrite Hk. right. now left.
  - now apply ac_number.
  - now apply ac_bool.
  - now apply ac_pbool.
  - eapply ac_enum; eauto. destruct He as (e & He & <-). eauto.
  - now apply ac_uuid.
  - eapply ac_uuid_text; eauto. destruct Hu as (a & b & c & d & e & H1 & H2 & H3 & H4 & H5 & H6 & _).
    exists a, b, c, d, e. auto 10.
  - contradiction.
  - now apply ac_bytes.
  - now apply ac_any.
  - eapply ac_ref; eauto. apply IH; [exact Hlit|]. intros t Hl. apply Hall. eapply le_ref; eauto.
Qed.

(** ** Numbers *)
Lemma accepts_number_inv ts v : In (ts_type ts) number_kinds -> accepts X sch ts v ->
  exists d, v = VDec d /\ within d (ts_min ts) (ts_max ts).
Proof.
  intros Hk H.
  inversion H; subst;
    try (match goal with E : ts_type ts = _ |- _ => rewrite E in Hk; simpl in Hk; intuition discriminate end).
  - eauto.
  - match goal with R : refers _ _ _ |- _ => destruct R as [R _]; exfalso; apply R; simpl in *; tauto end.
Qed.
Lemma accepts_string_inv ts v : ts_type ts = "String" -> accepts X sch ts v ->
  exists s, text_of v s /\ sizes_ok ts (String.length s) /\
    (forall vs, ts_values ts = Some vs -> In s vs) /\
    (ts_values ts = None -> pattern_ok X (ts_pattern ts) s).
Proof.
  intros Hk H. inversion H; subst; try congruence.
  - eauto 10.
  - rewrite Hk in *. simpl in *. intuition discriminate.
  - match goal with R : refers _ _ _ |- _ => destruct R as [R _]; rewrite Hk in R; exfalso; apply R; simpl; tauto end.
Qed.
Lemma accepts_uuid_inv ts v : ts_type ts = "UUID" -> accepts X sch ts v ->
  (exists s, v = VUuid s) \/ (exists s, text_of v s /\ uuid_shape (fun _ => True) s).
Proof.
  intros Hk H. inversion H; subst; try congruence.
  - rewrite Hk in *. simpl in *. intuition discriminate.
  - eauto.
  - eauto.
  - match goal with R : refers _ _ _ |- _ => destruct R as [R _]; rewrite Hk in R; exfalso; apply R; simpl; tauto end.
Qed.
Lemma accepts_unit_inv ts v : ts_type ts = "UnitValue" -> accepts X sch ts v ->
  exists a u d ts1 ts2, v = VPStr (a +++ String " " u) /\ smem " " a = false /\ 3 <= String.length a /\
    x_decimal X a = Some d /\ defines sch (ts_value ts) ts1 /\ accepts X sch ts1 (VDec d) /\
    defines sch (ts_unit ts) ts2 /\ accepts X sch ts2 (VStr u).
Proof.
  intros Hk H. inversion H; subst; try congruence.
  - rewrite Hk in *. simpl in *. intuition discriminate.
  - eauto 15.
  - match goal with R : refers _ _ _ |- _ => destruct R as [R _]; rewrite Hk in R; exfalso; apply R; simpl; tauto end.
Qed.

Lemma parse_unitvalue_iff s d u :
  parse_unitvalue X s = Some (mkUV d u) <->
  exists a, s = a +++ String " " u /\ smem " " a = false /\ a <> EmptyString /\ u <> EmptyString /\ x_decimal X a = Some d.
Proof.
  unfold parse_unitvalue. split.
  - destruct (cut " " s) as [[a w]|] eqn:E; [|discriminate]. apply cut_Some in E. destruct E as [-> Hs].
    destruct (a =?s "") eqn:Ea; [discriminate|]. apply seqb_neq in Ea.
    destruct (x_decimal X a) as [d'|] eqn:Ed; [|discriminate].
    destruct (w =?s "") eqn:Ew; [discriminate|]. apply seqb_neq in Ew.
    intro H. injection H as -> ->. eauto 10.
  - intros (a & -> & Hs & Ha & Hu & Hd).
    rewrite (proj2 (cut_Some " " (a +++ String " " u) a u)) by auto.
    apply seqb_neq in Ha, Hu. now rewrite Ha, Hd, Hu.
Qed.

Lemma unit_round_trip fmt q :
  x_decimal X (fmt (uvl_value q)) = Some (uvl_value q) -> smem " " (fmt (uvl_value q)) = false ->
  fmt (uvl_value q) <> EmptyString -> uvl_unit q <> EmptyString ->
  parse_unitvalue X (unitvalue_string fmt q) = Some q.
Proof.
  destruct q as [d u]. simpl. intros H1 H2 H3 H4. apply parse_unitvalue_iff.
  exists (fmt d). repeat split; assumption.
Qed.

(** ** Termination: a rank for alias names *)
Lemma ranked_names_end (rank : string -> nat) :
  (forall td, In td (sc_types sch) ->
     In (ts_type (td_spec td)) kinds \/
     (ts_type (td_spec td) <> "Union" /\ rank (ts_type (td_spec td)) < rank (td_name td))) ->
  forall ts, ts_type ts <> "Union" -> names_end sch ts.
Proof.
  intros Hr.
  assert (Hstop : forall ts, In (ts_type ts) kinds -> names_end sch ts).
  { intros ts Hk. constructor. intros b [Hb _]. contradiction. }
  assert (K : forall n ts, rank (ts_type ts) < n -> ts_type ts <> "Union" -> names_end sch ts).
  { induction n as [|n IH]; intros ts Hn Hu; [lia|]. constructor. intros b [Hk (td & Hd & <-)].
    destruct Hd as [[Hb ->]|[Hin Hname]].
    - exfalso. simpl in Hb, Hk. intuition congruence.
    - destruct (Hr td Hin) as [Hs|[Hs Hlt]]; [now apply Hstop|]. apply IH; [|exact Hs]. rewrite Hname in Hlt. lia. }
  intros ts Hu. apply (K (S (rank (ts_type ts)))); [lia|exact Hu].
Qed.
End M.
