(** Property theorems for EquivalentTypes (C15, C16, C17). *)
From Verif Require Import GoStr Outcome Value Schema Scalars Time Model SpecTime SpecModel ModelFacts MemberFacts
  Equiv SpecEquiv EquivFacts Demo.

(** ** C15 *)
Theorem C15_reflexive : forall m,
  (forall f ts, equivalent m (S f) true ts ts = Ok true)
  /\ (forall f n, equivalent_by_name m f n n = Ok true).
Proof. intro m. split; [exact (equivalent_refl m)|exact (fun f n => names_refl m _ n)]. Qed.
Print Assumptions C15_reflexive.
Theorem C15_transitive : forall m f,
  (forall n1 n2 n3, equivalent_by_name m f n1 n2 = Ok true -> equivalent_by_name m f n2 n3 = Ok true ->
     equivalent_by_name m f n1 n3 = Ok true)
  /\ (forall s12 s23 s13 a b c, (s12 && s23 = true -> s13 = true) ->
       equivalent m f s12 a b = Ok true -> equivalent m f s23 b c = Ok true -> equivalent m f s13 a c = Ok true).
Proof. intros m f. split; [exact (by_name_trans m f)|exact (equivalent_trans m f)]. Qed.
Print Assumptions C15_transitive.

Definition eq_types : list typedef :=
  [ tdef "E1" (ts_enum ["a"; "b"]); tdef "E2" (ts_enum ["b"; "a"]); tdef "E3" (ts_enum ["a"; "b"]);
    tdef "Twice" (ts_enum ["a"; "a"]);
    tdef "L1" (ts_array "E1" None None); tdef "L2" (ts_array "E2" None None);
    tdef "M1" (ts_map "String" "L1"); tdef "M2" (ts_map "String" "L2");
    tdef "P" (ts_struct [fld "x" true (ts_of "Int32")]); tdef "Q" (ts_struct [fld "y" true (ts_of "String")]);
    tdef "Short" (ts_array "String" None (Some 1%Z)); tdef "Long" (ts_array "String" None (Some 9%Z));
    tdef "A" (ts_array "B" None None); tdef "B" (ts_array "A" None None);
    tdef "Foo" (ts_array "String" None None) ].
Definition eq_schema : schema := schema_of eq_types [].
Definition eq_model : model := match new_model eq_schema with Ok m => m | _ => mkModel eq_schema [] [] end.
Lemma eq_model_ok : new_model eq_schema = Ok eq_model.
Proof. vm_compute. reflexivity. Qed.

Example C15_transitive_instance :
  equivalent_by_name eq_model 2 "E1" "E2" = Ok true /\ equivalent_by_name eq_model 2 "E2" "E3" = Ok true
  /\ equivalent_by_name eq_model 4 "M1" "M2" = Ok true /\ equivalent_by_name eq_model 4 "E1" "L1" = Ok false.
Proof. vm_compute. auto. Qed.

(** Symmetry fails: a symbol listed twice. *)
Theorem C15_symmetric_refuted : exists m f n1 n2,
  equivalent_by_name m f n1 n2 = Ok true /\ forall f', equivalent_by_name m (S f') n2 n1 = Ok false.
Proof. exists eq_model, 1, "E1", "Twice". split; [vm_compute; reflexivity|]. intro f. vm_compute. reflexivity. Qed.
Print Assumptions C15_symmetric_refuted.
(** It holds when no string value, symbol or variant is listed twice in the model's types. *)
Theorem C15_symmetric_partial : forall m,
  (forall n td, find_type m n = Some td -> listed_once (td_spec td)) ->
  forall f n1 n2, equivalent_by_name m f n1 n2 = equivalent_by_name m f n2 n1.
Proof. exact by_name_sym. Qed.
Print Assumptions C15_symmetric_partial.
Lemma all_once_of_types sch m : new_model sch = Ok m ->
  (forall td, In td (sc_types sch) -> listed_once (td_spec td)) ->
  forall n td, find_type m n = Some td -> listed_once (td_spec td).
Proof.
  intros Hm H n td Hf. apply (find_type_spec sch m Hm) in Hf. destruct Hf as [[_ ->]|[Hin _]]; [|auto].
  repeat split; constructor.
Qed.
Example C15_symmetric_instance : forall n td, find_type demo_model n = Some td -> listed_once (td_spec td).
Proof.
  apply (all_once_of_types _ _ demo_model_ok). intros td Htd. cbn in Htd.
  repeat (destruct Htd as [<-|Htd]; [repeat split; repeat constructor; simpl; intuition discriminate|]). destruct Htd.
Qed.
(** A copy of a definition is not equivalent to it when it has a size limit: MinSize pointers differ. *)
Theorem C15_copies_refuted : exists m a, forall f, equivalent m (S f) false a a = Ok false.
Proof.
  exists eq_model, (mkTS "String" "" None (Some 1%Z) None [] [] None None "" "" [] "" "" "").
  intro f. vm_compute. reflexivity.
Qed.
Print Assumptions C15_copies_refuted.

(** ** C16 *)
Theorem C16_same_values_refuted : exists X sch m n1 n2 ts1 ts2 v,
  new_model sch = Ok m /\ equivalent_by_name m 2 n1 n2 = Ok true
  /\ defines sch n1 ts1 /\ defines sch n2 ts2 /\ accepts X sch ts1 v /\ ~ accepts X sch ts2 v.
Proof.
  exists demo_ext, eq_schema, eq_model, "Long", "Short",
    (ts_array "String" None (Some 9%Z)), (ts_array "String" None (Some 1%Z)), (VArr [VStr "a"; VStr "b"]).
  split; [exact eq_model_ok|]. split; [vm_compute; reflexivity|].
  assert (D : forall n ts, find_type eq_model n = Some (tdef n ts) -> defines eq_schema n ts)
    by (intros n ts H; exists (tdef n ts); split; [now apply (find_type_spec _ _ eq_model_ok)|reflexivity]).
  split; [apply D; vm_compute; reflexivity|]. split; [apply D; vm_compute; reflexivity|]. split.
  - apply (ac_array _ _ _ (ts_of "String")); [reflexivity|discriminate|exists (base_typedef "String")| |].
    + split; [left; split; [simpl; tauto|reflexivity]|reflexivity].
    + intros x [<-|[<-|[]]]; eapply ac_string; try reflexivity; try (constructor; reflexivity);
        try discriminate; try (split; intros ? E; discriminate).
      all: try (intros _; constructor).
    + split; [exact I|]. vm_compute. discriminate.
  - intro H. apply accepts_array_inv in H; [|reflexivity]. destruct H as (l & E & [_ Hs] & _).
    injection E as <-. vm_compute in Hs. apply Hs. reflexivity.
Qed.
Print Assumptions C16_same_values_refuted.

(** If every two definitions that the comparison can look at also agree in what it forgets (maximum
    size, the fields of structs), and nothing is listed twice, the two types accept the same values. *)
Theorem C16_same_values_partial : forall X sch m, new_model sch = Ok m ->
  forall f s a b, (s = true -> a = b) -> equivalent m f s a b = Ok true ->
  (forall c d, compared sch a b c d -> unseen_agree c d /\ listed_once d) ->
  forall v, accepts X sch a v <-> accepts X sch b v.
Proof. exact equivalent_same_values. Qed.
Print Assumptions C16_same_values_partial.

(** ** C17 *)
Theorem C17_terminates_refuted : exists sch m n1 n2,
  new_model sch = Ok m /\ (exists ts, defines sch n1 ts) /\ (exists ts, defines sch n2 ts)
  /\ forall f, equivalent_by_name m f n1 n2 = OutOfFuel.
Proof.
  exists eq_schema, eq_model, "A", "B". split; [exact eq_model_ok|].
  assert (D : forall n ts, find_type eq_model n = Some (tdef n ts) -> exists ts, defines eq_schema n ts)
    by (intros n ts H; exists ts, (tdef n ts); split; [now apply (find_type_spec _ _ eq_model_ok)|reflexivity]).
  split; [apply (D "A" (ts_array "B" None None)); vm_compute; reflexivity|].
  split; [apply (D "B" (ts_array "A" None None)); vm_compute; reflexivity|].
  assert (FA : find_type eq_model "A" = Some (tdef "A" (ts_array "B" None None))) by (vm_compute; reflexivity).
  assert (FB : find_type eq_model "B" = Some (tdef "B" (ts_array "A" None None))) by (vm_compute; reflexivity).
  assert (H : forall f, equivalent eq_model f false (ts_array "B" None None) (ts_array "A" None None) = OutOfFuel
                     /\ equivalent eq_model f false (ts_array "A" None None) (ts_array "B" None None) = OutOfFuel).
  { induction f as [|f [IH1 IH2]]; [auto|].
    cbn [equivalent equiv_step ts_type ts_array negb ptr_eq ts_minsize ts_items ts_keys].
    unfold equiv_step. cbn -[find_type equivalent equiv_names eq_model]. unfold equiv_names.
    cbn -[find_type equivalent eq_model]. rewrite FA, FB. cbn [td_spec tdef]. rewrite IH1, IH2. auto. }
  intro f. unfold equivalent_by_name, equiv_names. cbn -[find_type equivalent eq_model]. rewrite FA, FB. apply H.
Qed.
Print Assumptions C17_terminates_refuted.
(** ... and it can crash: Array itself has no item type. *)
Theorem C17_crash_refuted : exists sch m n1 n2,
  new_model sch = Ok m /\ (exists ts, defines sch n1 ts) /\ (exists ts, defines sch n2 ts)
  /\ forall f, equivalent_by_name m (S f) n1 n2 = Panic.
Proof.
  exists eq_schema, eq_model, "Array", "Foo". split; [exact eq_model_ok|].
  split; [exists (ts_of "Array"), (base_typedef "Array"); split; [left; split; [simpl; tauto|reflexivity]|reflexivity]|].
  split; [exists (ts_array "String" None None), (tdef "Foo" (ts_array "String" None None)); split;
          [apply (find_type_spec _ _ eq_model_ok); vm_compute; reflexivity|reflexivity]|].
  intro f. vm_compute. reflexivity.
Qed.
Print Assumptions C17_crash_refuted.
(** With every part defined, down to the bottom, it answers. *)
Theorem C17_terminates_partial : forall sch m, new_model sch = Ok m ->
  forall n1 n2, comparable sch n1 -> comparable sch n2 ->
  exists f b, equivalent_by_name m f n1 n2 = Ok b
    /\ forall f', f <= f' -> equivalent_by_name m f' n1 n2 = Ok b.
Proof.
  intros sch m Hm n1 n2 H1 H2. destruct (comparable_decides sch m Hm n1 H1 n2 H2) as (f & b & E).
  exists f, b. split; [exact E|]. intros f' Hf. rewrite <- E. apply by_name_mono; [exact Hf|].
  unfold bfin. rewrite E. discriminate.
Qed.
Print Assumptions C17_terminates_partial.
Lemma eq_defines n ts : find_type eq_model n = Some (mkTD n "" [] ts) -> defines eq_schema n ts.
Proof. intro H. exists (mkTD n "" [] ts). split; [now apply (find_type_spec _ _ eq_model_ok)|reflexivity]. Qed.
Example C17_terminates_instance : comparable eq_schema "M1" /\ comparable eq_schema "M2".
Proof.
  assert (E : forall n l, find_type eq_model n = Some (tdef n (ts_enum l)) -> comparable eq_schema n).
  { intros n l H. eapply cm_intro; [apply eq_defines; exact H|..]; discriminate. }
  assert (S : comparable eq_schema "String").
  { apply (cm_intro _ _ (ts_of "String")); try discriminate. apply eq_defines. vm_compute. reflexivity. }
  assert (L1 : comparable eq_schema "L1").
  { apply (cm_intro _ _ (ts_array "E1" None None)); try discriminate; try reflexivity;
      [apply eq_defines; vm_compute; reflexivity|].
    intros _. apply (E "E1" ["a"; "b"]). vm_compute. reflexivity. }
  assert (L2 : comparable eq_schema "L2").
  { apply (cm_intro _ _ (ts_array "E2" None None)); try discriminate; try reflexivity;
      [apply eq_defines; vm_compute; reflexivity|].
    intros _. apply (E "E2" ["b"; "a"]). vm_compute. reflexivity. }
  split.
  - apply (cm_intro _ _ (ts_map "String" "L1")); try discriminate; try (intros _; assumption).
    apply eq_defines. vm_compute. reflexivity.
  - apply (cm_intro _ _ (ts_map "String" "L2")); try discriminate; try (intros _; assumption).
    apply eq_defines. vm_compute. reflexivity.
Qed.

(** The hypotheses of C16_same_values_partial are met by two lists of enums with reordered symbols. *)
Example C16_same_values_instance :
  equivalent eq_model 2 false (ts_array "E1" None None) (ts_array "E2" None None) = Ok true
  /\ forall c d, compared eq_schema (ts_array "E1" None None) (ts_array "E2" None None) c d ->
       unseen_agree c d /\ listed_once d.
Proof.
  split; [vm_compute; reflexivity|].
  assert (D1 : defines eq_schema "E1" (ts_enum ["a"; "b"])) by (apply eq_defines; vm_compute; reflexivity).
  assert (D2 : defines eq_schema "E2" (ts_enum ["b"; "a"])) by (apply eq_defines; vm_compute; reflexivity).
  assert (En : forall c d, compared eq_schema (ts_enum ["a"; "b"]) (ts_enum ["b"; "a"]) c d ->
    unseen_agree c d /\ listed_once d).
  { intros c d H. inversion H as [x y|x y n1 n2 a' b' c' d' Et Hp]; subst.
    - split; [repeat split; discriminate|]. repeat split; repeat constructor; simpl; intuition discriminate.
    - inversion Hp as [x y Hx|x y Hx|x y Hx|x y Hx]; subst; simpl in Hx; intuition discriminate. }
  intros c d H. inversion H as [x y|x y n1 n2 a' b' c' d' Et Hp Hne Ha Hb Hc]; subst.
  - split; [repeat split; discriminate|]. repeat split; constructor.
  - inversion Hp as [x y Hx|x y Hx|x y Hx|x y Hx]; subst; simpl in *; try discriminate; try congruence.
    rewrite (defines_fun _ _ eq_model_ok _ _ _ Ha D1), (defines_fun _ _ eq_model_ok _ _ _ Hb D2) in Hc.
    exact (En c d Hc).
Qed.
