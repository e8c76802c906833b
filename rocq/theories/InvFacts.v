(** What a file can put into a schema. *)
From Verif Require Import GoStr Outcome Value Schema Scalars Time Model ModelFacts Misc ParserValidate Scan ScanFacts
  Parser ParserTerm ReadFacts Gives SpecModel SpecMisc SpecPV SpecParser PVFacts.

Definition T_ (t : token) : Prop := tk_type t = SYMBOL -> tk_text t <> "".
Notation givesT := (gives T_).

Create HintDb gives.
Ltac g_ret := match goal with |- gives _ (Ret _) _ => unfold gives end.
Ltac g1 :=
  match goal with
  | |- gives _ (Ret _) _ => unfold gives
  | |- gives _ (Fail _) _ => exact I
  | |- gives _ Crash _ => exact I
  | |- gives _ Spin _ => exact I
  | |- gives _ fail_eof _ => exact I
  | |- gives _ fail_syntax _ => exact I
  | |- gives _ (Get _) _ => apply gives_get; [let t := fresh "t" in let Ht := fresh "Ht" in intros t Ht|]
  | |- gives _ (Unget ?k) ?P => change (gives T_ k P)
  | |- gives _ (bind _ _) _ => apply gives_bind; eapply gives_mono;
      [solve [eauto with gives]|let a := fresh "a" in let Ha := fresh "Ha" in intros a Ha; cbv beta in *]
  | |- gives _ (match ?x with _ => _ end) _ => let Q := fresh "Q" in destruct x eqn:Q
  end.
Ltac g := repeat g1.
Lemma g_any {A} (p : prog A) : givesT p (fun _ => True).
Proof.
  induction p as [b|e| | |k IH|p IH]; simpl; try exact I; [split; intros; apply IH|exact IH].
Qed.

Lemma is_type_eq ty t : is_type ty t = true -> tk_type t = ty.
Proof. apply teqb_eq. Qed.

Lemma g_identifier : givesT expect_identifier (fun s => s <> "").
Proof. unfold expect_identifier, assert_identifier. g. apply is_type_eq in Q. exact (Ht Q). Qed.
#[export] Hint Resolve g_identifier : gives.
Lemma g_int32 : givesT (expect_int 32) int32.
Proof.
  unfold expect_int. g. unfold parse_int in Q0. unfold int32.
  assert (C : forall z', (if ((- 2 ^ (32 - 1) <=? z')%Z && (z' <? 2 ^ (32 - 1))%Z)%bool then Some z' else None) = Some z ->
     (-2147483648 <= z <= 2147483647)%Z).
  { intros z'. change (- 2 ^ (32 - 1))%Z with (-2147483648)%Z. change (2 ^ (32 - 1))%Z with 2147483648%Z. destruct (Z.leb_spec (-2147483648) z'), (Z.ltb_spec z' 2147483648); simpl; try discriminate; intros H1; try discriminate H1.
    injection H1 as <-. lia. }
  destruct (tk_text t) as [|c r]; [discriminate|].
  destruct c as [b0 b1 b2 b3 b4 b5 b6 b7]; destruct b0, b1, b2, b3, b4, b5, b6, b7;
    match type of Q0 with match ?u with _ => _ end = _ => destruct u; [exact (C _ Q0)|discriminate] end.
Qed.
#[export] Hint Resolve g_int32 : gives.

(** ** Values *)
Lemma vwf_simple v : (forall l, v <> VArr l) -> (forall l, v <> VMap l) -> vwf v.
Proof. intros. apply wf_leaf; assumption. Qed.

Section S.
Variable X : ext.

Lemma g_literal n : forall t, givesT (parse_literal X n t) vwf.
Proof.
  induction n as [|n IH]; intros t; [exact I|]. cbn [parse_literal].
  destruct (tk_type t); try exact I.
  - unfold parse_literal_symbol. g; apply vwf_simple; discriminate.
  - unfold parse_literal_number. g. apply vwf_simple; discriminate.
  - apply gives_bind. eapply gives_mono; [apply g_any|]. intros s _. g. apply vwf_simple; discriminate.
  - apply gives_bind. eapply gives_mono.
    + apply (gives_loop _ (fun l => NoDup (keys l) /\ Forall (fun kv => vwf (snd kv)) l)
                          (fun l => NoDup (keys l) /\ Forall (fun kv => vwf (snd kv)) l)).
      2:{ split; constructor. }
      intros l (H1 & H2). apply gives_get; [intros t' Ht'|exact I].
      destruct (tk_type t'); try exact I; try (g; split; assumption).
      apply gives_bind. eapply gives_mono; [apply g_any|]. intros k _.
      apply gives_bind. eapply gives_mono; [apply g_any|]. intros u _.
      apply gives_bind. eapply gives_mono.
      { apply gives_get; [intros t2 _; apply IH|exact I]. }
      intros v Hv. g. cbv beta in Hv. split; [apply assoc_set_NoDup, H1|].
      clear - H2 Hv. induction l as [|(k' & w) l IHl]; simpl; [constructor; [exact Hv|constructor]|].
      inversion H2; subst. destruct (k =?s k'); constructor; auto.
    + intros l (H1 & H2). g. apply wf_map; assumption.
  - apply gives_bind. eapply gives_mono.
    + apply (gives_loop _ (fun l => Forall vwf l) (fun l => Forall vwf l)); [|constructor].
      intros l Hl. apply gives_get; [intros t' Ht'|exact I].
      destruct (tk_type t'); try (g; assumption);
        (apply gives_bind; eapply gives_mono; [apply IH|]; intros v Hv; g; apply Forall_app; split; [exact Hl|constructor; [exact Hv|constructor]]).
    + intros l Hl. g. apply wf_arr. exact Hl.
Qed.
Lemma g_literal_value n : givesT (parse_literal_value X n) vwf.
Proof. unfold parse_literal_value. g. apply g_literal. Qed.

(** ** Options: only what was allowed *)
Definition options_ok (acc : list string) (o : options) : Prop :=
  vwf (o_default o)
  /\ (o_required o = true -> In "required" acc) /\ (o_default o <> VNil -> In "default" acc)
  /\ (o_pattern o <> "" -> In "pattern" acc) /\ (o_values o <> None -> In "values" acc)
  /\ (o_minsize o <> None -> In "minsize" acc) /\ (o_maxsize o <> None -> In "maxsize" acc)
  /\ (o_min o <> None -> In "min" acc) /\ (o_max o <> None -> In "max" acc)
  /\ (o_reference o <> "" -> In "reference" acc) /\ (o_header o <> "" -> In "header" acc)
  /\ (o_resource o <> "" -> In "resource" acc) /\ (o_name o <> "" -> In "name" acc)
  /\ (o_action o <> "" -> In "action" acc \/ In "operation" acc).
Lemma no_options_ok acc : options_ok acc no_options.
Proof.
  unfold options_ok, no_options; simpl. split; [apply vwf_simple; discriminate|]. repeat split; intros; congruence.
Qed.
Lemma g_option n acc m o : In m acc -> options_ok acc o -> givesT (parse_option X n m o) (options_ok acc).
Proof.
  intros Hm Ho. unfold parse_option.
  assert (Fin : forall o', (forall acc', acc' = acc -> options_ok acc' o -> options_ok acc' o') -> options_ok acc o') by (intros o' H; exact (H acc eq_refl Ho)).
  Ltac opt_done := let H1 := fresh in intros; subst; unfold gives, options_ok in *; simpl;
    repeat match goal with H : _ /\ _ |- _ => destruct H end;
    repeat apply conj; solve [assumption | intros _; assumption | intros _; left; assumption | intros _; right; assumption].
  Ltac opt_case m w := let K := fresh "K" in destruct (m =?s w) eqn:K; [apply seqb_eq in K; subst m;
    try (apply gives_bind; eapply gives_mono; [apply g_any|]; intros v _); opt_done|].
  opt_case m "min". opt_case m "max". opt_case m "minsize". opt_case m "maxsize". opt_case m "pattern".
  opt_case m "values". opt_case m "required".
  destruct (m =?s "default") eqn:K6.
  { apply seqb_eq in K6. subst m. apply gives_bind. eapply gives_mono with (P := vwf).
    + unfold parse_equals_literal. apply gives_bind. eapply gives_mono; [apply g_any|]. intros _ _. apply g_literal_value.
    + intros v Hv. opt_done. }
  opt_case m "action". simpl orb. opt_case m "operation". opt_case m "resource". opt_case m "reference".
  opt_case m "header". opt_case m "name". exact I.
Qed.
Lemma g_options n acc : givesT (parse_options X n acc) (options_ok acc).
Proof.
  unfold parse_options. apply gives_get; [intros t Ht|apply no_options_ok].
  destruct (is_type OPEN_PAREN t); [|apply no_options_ok].
  apply (gives_loop _ (options_ok acc)); [|apply no_options_ok].
  intros o Ho. apply gives_get; [intros t' Ht'|exact I]. destruct (tk_type t'); try exact I; try exact Ho.
  apply gives_bind. eapply gives_mono with (P := options_ok acc); [|intros o' Ho'; exact Ho'].
  destruct (has_prefix "x_" _).
  - apply gives_bind. eapply gives_mono; [apply g_any|]. intros a _. unfold gives. exact Ho.
  - destruct (str_mem _ acc) eqn:M; [|exact I]. apply g_option; [now apply str_mem_In|exact Ho].
Qed.
Hint Resolve g_options : gives.

(** ** Type specifications *)
Definition fields_ok (fs : list fielddef) : Prop := forall f, In f fs -> deep written_field f.
Definition te_ok (te : telems) : Prop :=
  te_type te <> ""
  /\ fields_ok (opt_list (te_fields te))
  /\ (forall ps p, te_params te = Some ps -> In p ps -> p <> "").
Definition plain_spec (ts : typespec) : Prop :=
  ts_pattern ts = "" /\ ts_values ts = None /\ ts_minsize ts = None /\ ts_maxsize ts = None
  /\ ts_min ts = None /\ ts_max ts = None /\ ts_reference ts = "".
Lemma g_type_spec_of te : te_ok te ->
  givesT (type_spec_of te) (fun ts => ts_type ts = te_type te /\ ts_type ts <> "" /\ plain_spec ts /\ fields_ok (ts_fields ts)).
Proof.
  intros (H1 & H2 & H3). unfold type_spec_of, array_params, map_params, unit_params.
  repeat match goal with
  | |- gives _ (if ?b then _ else _) _ => destruct b
  | |- gives _ (bind _ _) _ => apply gives_bind; eapply gives_mono; [apply g_any|]; intros ? _
  | |- gives _ (let '(_, _) := ?a in _) _ => destruct a
  | |- gives _ (match ?a with [] => _ | _ => _ end) _ => destruct a
  end; try exact I; unfold gives; simpl; unfold plain_spec; simpl; auto 12.
Qed.
Lemma g_type_spec elems c : givesT elems te_ok ->
  givesT (parse_type_spec elems c) (fun '(ts, o, c') => ts_type ts <> "" /\ plain_spec ts /\ fields_ok (ts_fields ts)).
Proof.
  intros H. unfold parse_type_spec. apply gives_bind. eapply gives_mono; [exact H|]. intros te Hte.
  apply gives_bind. eapply gives_mono; [apply g_type_spec_of, Hte|]. intros ts (H1 & H2 & H3 & H4). unfold gives. auto.
Qed.
Lemma in_one {A} (x y : A) : In x [y] -> x = y.
Proof. intros [H|[]]; auto. Qed.
Lemma field_limits ts o : options_ok (field_acceptable (ts_type ts)) o -> limits_fit (with_options ts o).
Proof.
  unfold options_ok, limits_fit, with_options; simpl.
  intros (_ & _ & _ & P1 & P2 & P3 & P4 & P5 & P6 & P7 & _).
  assert (F : forall w l, In w l -> str_mem w l = false -> False).
  { intros w l H' H. apply str_mem_In in H'. congruence. }
  unfold field_acceptable in *.
  destruct (ts_type ts =?s "String") eqn:E1.
  { apply seqb_eq in E1. rewrite E1. split; [reflexivity|]. split; [intros _; simpl; auto|].
    split; [|intros _; simpl; auto]. intros [H|H]; exfalso; [exact (F _ _ (P5 H) eq_refl)|exact (F _ _ (P6 H) eq_refl)]. }
  destruct (ts_type ts =?s "UUID") eqn:E2.
  { apply seqb_eq in E2. rewrite E2. split; [|split; [|split; [|intros _; simpl; auto]]];
      intros [H|H]; exfalso;
      first [exact (F _ _ (P1 H) eq_refl)|exact (F _ _ (P2 H) eq_refl)|exact (F _ _ (P3 H) eq_refl)
            |exact (F _ _ (P4 H) eq_refl)|exact (F _ _ (P5 H) eq_refl)|exact (F _ _ (P6 H) eq_refl)]. }
  destruct (str_mem (ts_type ts) numeric_types) eqn:E3.
  { apply str_mem_In in E3. split; [|split; [|split; [intros _; exact E3|]]]; [| |intros H; exfalso; exact (F _ _ (P7 H) eq_refl)];
      intros [H|H]; exfalso;
      first [exact (F _ _ (P1 H) eq_refl)|exact (F _ _ (P2 H) eq_refl)|exact (F _ _ (P3 H) eq_refl)
            |exact (F _ _ (P4 H) eq_refl)|exact (F _ _ (P5 H) eq_refl)|exact (F _ _ (P6 H) eq_refl)]. }
  destruct (str_mem (ts_type ts) ["Bytes"; "Array"; "Map"]) eqn:E4.
  { apply str_mem_In in E4. split; [|split; [intros _; clear - E4; simpl in *; tauto|split]];
      [| |intros H; exfalso; exact (F _ _ (P7 H) eq_refl)]; intros [H|H]; exfalso;
      first [exact (F _ _ (P1 H) eq_refl)|exact (F _ _ (P2 H) eq_refl)|exact (F _ _ (P5 H) eq_refl)|exact (F _ _ (P6 H) eq_refl)]. }
  split; [|split; [|split]]; [| | |intros H; exfalso; exact (F _ _ (P7 H) eq_refl)]; intros [H|H]; exfalso;
      first [exact (F _ _ (P1 H) eq_refl)|exact (F _ _ (P2 H) eq_refl)|exact (F _ _ (P3 H) eq_refl)
            |exact (F _ _ (P4 H) eq_refl)|exact (F _ _ (P5 H) eq_refl)|exact (F _ _ (P6 H) eq_refl)].
Qed.
Lemma g_struct_field n elems : givesT elems te_ok ->
  givesT (parse_struct_field X n elems) (fun r => forall f, r = Some f -> deep written_field f).
Proof.
  intros H. unfold parse_struct_field. apply gives_bind. eapply gives_mono; [apply g_any|]. intros [c|] _.
  2:{ unfold gives. discriminate. }
  g1. apply gives_bind. eapply gives_mono; [apply g_type_spec, H|]. intros ((ts & o0) & c') (H1 & H2 & H3).
  g1. apply gives_bind. eapply gives_mono; [apply g_any|]. intros (c2 & b) _. unfold gives.
  intros f Hf. injection Hf as <-. constructor; simpl.
  - split; [exact Ha|]. split; [apply Ha0|]. apply field_limits. exact Ha0.
  - exact H3.
Qed.
Lemma g_collect {A} n (P : A -> Prop) item : givesT item (fun r => forall a, r = Some a -> P a) ->
  givesT (collect n item) (fun l => forall a, In a l -> P a).
Proof.
  intros H. unfold collect. apply (gives_loop _ (fun l => forall a, In a l -> P a)); [|intros ? []].
  intros l Hl. apply gives_bind. eapply gives_mono; [exact H|]. intros [a|] Ha; unfold gives; [|exact Hl].
  intros b Hb. apply in_app_iff in Hb. destruct Hb as [Hb|[<-|[]]]; [exact (Hl b Hb)|exact (Ha a eq_refl)].
Qed.
Lemma g_angle n s : givesT (parse_angle n s) (fun te => te_ok te /\ te_fields te = None
  /\ ((In s ["Array"; "List"] /\ te_type te = "Array") \/ (In s ["Map"; "UnitValue"; "Union"] /\ te_type te = s))).
Proof.
  assert (G : forall ty ex, ty <> "" -> givesT (loop n (fun ps => Get (fun t => match t with
      | None => fail_eof
      | Some tok =>
          match tk_type tok with
          | COMMA => Ret (inl ps)
          | CLOSE_ANGLE =>
              if match ex with Some n => negb (n =? length ps)%nat | None => false end then fail_syntax
              else Ret (inr (mkTE ty (match ps with [] => None | _ => Some ps end) None [] no_options ""))
          | SYMBOL => Ret (inl (ps ++ [tk_text tok]))
          | _ => fail_syntax
          end
      end)) []) (fun te => te_ok te /\ te_fields te = None /\ te_type te = ty)).
  { intros ty ex Hty. apply (gives_loop _ (fun ps => forall p, In p ps -> p <> "")); [|intros ? []].
    intros ps Hps. apply gives_get; [intros t Ht|exact I]. destruct (tk_type t) eqn:K; try exact I.
    - unfold gives. intros p Hp. apply in_app_iff in Hp. destruct Hp as [Hp|[<-|[]]]; [auto|exact (Ht K)].
    - unfold gives. exact Hps.
    - match goal with |- gives _ (if ?b then _ else _) _ => destruct b end; [exact I|]. unfold gives.
      split; [|split; reflexivity]. split; [exact Hty|]. split; [intros ? []|]. simpl. intros ps' p Hps' Hp.
      destruct ps; [discriminate|]. injection Hps' as <-. auto. }
  unfold parse_angle.
  destruct ((s =?s "Array") || (s =?s "List")) eqn:E1.
  { eapply gives_mono; [refine (G "Array" (Some 1) _); discriminate|]. intros te (H1 & H2 & H3). split; [exact H1|]. split; [exact H2|]. left.
    split; [|exact H3]. apply orb_true_iff in E1. destruct E1 as [E1|E1]; apply seqb_eq in E1; simpl; auto. }
  destruct ((s =?s "Map") || (s =?s "UnitValue")) eqn:E2.
  { assert (K : In s ["Map"; "UnitValue"]) by (apply orb_true_iff in E2; destruct E2 as [E2|E2]; apply seqb_eq in E2; simpl; auto).
    eapply gives_mono; [refine (G s (Some 2) _); intros ->; simpl in K; intuition discriminate|]. intros te (H1 & H2 & H3).
    split; [exact H1|]. split; [exact H2|]. right. split; [simpl in *; tauto|exact H3]. }
  destruct (s =?s "Union") eqn:E3; [|exact I]. apply seqb_eq in E3. subst s.
  eapply gives_mono; [refine (G "Union" None _); discriminate|]. intros te (H1 & H2 & H3). simpl. tauto.
Qed.
Lemma g_elements n : givesT (type_spec_elements X n) te_ok.
Proof.
  induction n as [|n IH]; [exact I|]. cbn [type_spec_elements].
  g1. apply gives_get.
  2:{ unfold gives. split; [exact Ha|]. simpl. split; [intros ? []|discriminate]. }
  intros t Ht. destruct (is_type OPEN_ANGLE t).
  { eapply gives_mono; [apply g_angle|]. intros te Hte. apply Hte. }
  assert (Pl : forall o, te_ok (mkTE a None None [] o "")).
  { intros o. split; [exact Ha|]. split; [intros ? []|discriminate]. }
  destruct (str_mem a _); [|apply Pl].
  apply gives_bind. eapply gives_mono; [apply g_any|]. intros (tok & o) _.
  destruct (is_type OPEN_BRACE tok); [|apply Pl].
  apply gives_bind. eapply gives_mono; [apply g_any|]. intros c _.
  apply gives_bind. eapply gives_mono; [apply g_any|]. intros _ _.
  destruct (a =?s "Enum").
  - apply gives_bind. eapply gives_mono; [apply g_any|]. intros els _.
    apply gives_bind. eapply gives_mono; [apply g_any|]. intros (c' & b) _.
    change (te_ok (mkTE a None None els o c')). split; [exact Ha|]. split; [intros ? []|discriminate].
  - apply gives_bind. eapply gives_mono; [apply g_collect, g_struct_field, IH|]. intros fs Hfs.
    apply gives_bind. eapply gives_mono; [apply g_any|]. intros (c' & b) _.
    change (te_ok (mkTE a None (some_list fs) [] o c')). split; [exact Ha|]. split; [|discriminate].
    simpl. unfold some_list. destruct fs; simpl; [intros ? []|exact Hfs].
Qed.

Lemma g_type_options n acc ts :
  givesT (type_options X n acc ts) (fun r => exists o, options_ok acc o /\ fst r = with_options ts o).
Proof. unfold type_options. g. exists a. auto. Qed.
Lemma g_simple n acc name c ts :
  givesT (simple_def X n acc name c ts) (fun td => td_name td = name /\ exists o, options_ok acc o /\ td_spec td = with_options ts o).
Proof.
  unfold simple_def. apply gives_bind. eapply gives_mono; [apply g_type_options|]. intros (ts' & a) (o & Ho & E).
  simpl in E. subst. apply gives_bind. eapply gives_mono; [apply g_any|]. intros c' _. unfold gives. simpl. eauto.
Qed.
(** the limits left by the options for a type *)
Lemma limits_of acc ts o : options_ok acc o ->
  (str_mem "pattern" acc = true \/ str_mem "values" acc = true -> ts_type ts = "String") ->
  (str_mem "minsize" acc = true \/ str_mem "maxsize" acc = true -> In (ts_type ts) ["String"; "Bytes"; "Array"; "List"; "Map"]) ->
  (str_mem "min" acc = true \/ str_mem "max" acc = true -> In (ts_type ts) number_kinds) ->
  (str_mem "reference" acc = true -> In (ts_type ts) ["String"; "UUID"]) ->
  limits_fit (with_options ts o).
Proof.
  rewrite !str_mem_In. intros (_ & _ & _ & P1 & P2 & P3 & P4 & P5 & P6 & P7 & _) H1 H2 H3 H4.
  unfold limits_fit, with_options; simpl. split; [|split; [|split]]; intros H.
  - apply H1. destruct H; auto.
  - apply H2. destruct H; auto.
  - apply H3. destruct H; auto.
  - apply H4. auto.
Qed.
Ltac no_mem := let H := fresh in intros H; exfalso; repeat (destruct H as [H|H]); discriminate H.

Lemma kind_in l t : str_mem t l = true -> (forall x, In x l -> str_mem x ("List" :: base_types) = true) -> In t ("List" :: base_types).
Proof. intros H HI. apply str_mem_In. apply HI. now apply str_mem_In. Qed.
Ltac in_kinds := match goal with |- ?P => first [refine (proj1 (str_mem_In _ ("List" :: base_types)) _ : P); reflexivity] end.
Ltac parts := unfold parts_fit; simpl; repeat apply conj; intros H; try congruence; try (destruct H; congruence); auto.

Lemma g_type_directive n c : givesT (parse_type_directive X n c) written_type.
Proof.
  unfold parse_type_directive. g1. rename a into name. rename Ha into Hn.
  apply gives_bind. eapply gives_mono; [apply g_elements|]. intros te (H1 & H2 & H3).
  set (t := te_type te) in *. set (c' := merge_comment _ _).
  assert (Lf : forall o, limits_fit (with_options (ts_of t) o) -> limits_fit (with_options (ts_of t) o)) by auto.
  destruct (str_mem t ["Any"; "Bool"; "Timestamp"]) eqn:E1.
  { eapply gives_mono; [apply g_simple|]. intros td (N & o & Ho & E). unfold written_type. rewrite N, E. simpl.
    split; [exact Hn|]. split; [apply (kind_in _ _ E1); intros x [<-|[<-|[<-|[]]]]; reflexivity|].
    split; [left; apply (limits_of _ _ _ Ho); simpl; no_mem|]. split; [parts|intros ? []]. }
  destruct (str_mem t numeric_types) eqn:E2.
  { eapply gives_mono; [apply g_simple|]. intros td (N & o & Ho & E). unfold written_type. rewrite N, E. simpl.
    split; [exact Hn|]. split; [apply (kind_in _ _ E2); intros x Hx; repeat (destruct Hx as [<-|Hx]; [reflexivity|]); destruct Hx|].
    split; [left; apply (limits_of _ _ _ Ho); simpl; try no_mem; intros _; exact (proj1 (str_mem_In _ _) E2)|]. split; [parts|intros ? []]. }
  destruct (t =?s "Bytes") eqn:E3.
  { apply seqb_eq in E3. eapply gives_mono; [apply g_simple|]. intros td (N & o & Ho & E). unfold written_type. rewrite N, E. rewrite E3. simpl.
    split; [exact Hn|]. split; [in_kinds|].
    split; [left; apply (limits_of _ _ _ Ho); simpl; try no_mem; auto|]. split; [parts|intros ? []]. }
  destruct (t =?s "String") eqn:E4.
  { apply seqb_eq in E4. apply gives_bind. eapply gives_mono; [apply g_simple|]. intros td (N & o & Ho & E). unfold gives.
    assert (L : limits_fit (with_options (ts_of t) o)).
    { apply (limits_of _ _ _ Ho); rewrite E4; simpl; try no_mem; auto. }
    rewrite E. cbn [ts_pattern with_options]. destruct (o_pattern o =?s regex_uuid) eqn:U.
    - unfold written_type; cbn [td_name td_spec ts_type].
      split; [exact Hn|]. split; [in_kinds|]. split.
      + right. split; [reflexivity|]. split; [reflexivity|]. rewrite E4 in L. clear - L. unfold limits_fit in *. simpl in *.
        destruct L as (L1 & L2 & L3 & L4). repeat apply conj; intros H; auto. destruct H; congruence.
      + split; [parts|intros ? []].
    - unfold written_type. rewrite N, E. rewrite E4 in L |- *. simpl.
      split; [exact Hn|]. split; [in_kinds|]. split; [left; exact L|]. split; [parts|intros ? []]. }
  destruct (t =?s "UUID") eqn:E5.
  { apply seqb_eq in E5. eapply gives_mono; [apply g_simple|]. intros td (N & o & Ho & E). unfold written_type. rewrite N, E. rewrite E5. simpl.
    split; [exact Hn|]. split; [in_kinds|].
    split; [left; apply (limits_of _ _ _ Ho); simpl; try no_mem; auto|]. split; [parts|intros ? []]. }
  destruct (t =?s "UnitValue") eqn:E6.
  { apply seqb_eq in E6. apply gives_bind. eapply gives_mono; [apply g_any|]. intros (ts & a) _.
    apply gives_bind. eapply gives_mono; [apply g_any|]. intros (v & u) _.
    apply gives_bind. eapply gives_mono; [apply g_any|]. intros c2 _. unfold gives, written_type. simpl. rewrite E6.
    split; [exact Hn|]. split; [in_kinds|].
    split; [left; unfold limits_fit; simpl; parts|]. split; [parts|intros ? []]. }
  destruct ((t =?s "Array") || (t =?s "List")) eqn:E7.
  { apply gives_bind. eapply gives_mono; [apply g_any|]. intros i _.
    eapply gives_mono; [apply g_simple|]. intros td (N & o & Ho & E). unfold written_type. rewrite N, E.
    assert (K : t = "Array" \/ t = "List") by (apply orb_true_iff in E7; destruct E7 as [K|K]; apply seqb_eq in K; auto).
    clearbody t. destruct K as [->| ->]; simpl; (split; [exact Hn|]; split; [in_kinds|];
    split; [left; apply (limits_of _ _ _ Ho); simpl; try no_mem; auto|]; split; [parts|intros ? []]). }
  destruct (t =?s "Map") eqn:E8.
  { apply seqb_eq in E8. apply gives_bind. eapply gives_mono; [apply g_any|]. intros (k & i) _.
    eapply gives_mono; [apply g_simple|]. intros td (N & o & Ho & E). unfold written_type. rewrite N, E. rewrite E8. simpl.
    split; [exact Hn|]. split; [in_kinds|].
    split; [left; apply (limits_of _ _ _ Ho); simpl; try no_mem; auto 10|]. split; [parts|intros ? []]. }
  destruct (t =?s "Struct") eqn:E9.
  { apply seqb_eq in E9. apply gives_bind. eapply gives_mono; [apply g_any|]. intros o _. unfold gives, written_type. simpl. rewrite E9.
    split; [exact Hn|]. split; [in_kinds|].
    split; [left; unfold limits_fit; simpl; parts|]. split; [parts|exact H2]. }
  destruct (t =?s "Enum") eqn:E10.
  { apply seqb_eq in E10. unfold gives, written_type. simpl. rewrite E10.
    split; [exact Hn|]. split; [in_kinds|].
    split; [left; unfold limits_fit; simpl; parts|]. split; [parts|intros ? []]. }
  destruct (t =?s "Union") eqn:E11; [|exact I].
  apply seqb_eq in E11. apply gives_bind. eapply gives_mono; [apply g_any|]. intros (ts & a) _.
  apply gives_bind. eapply gives_mono; [apply g_any|]. intros vs _.
  apply gives_bind. eapply gives_mono; [apply g_any|]. intros c2 _. unfold gives, written_type. simpl. rewrite E11.
  split; [exact Hn|]. split; [in_kinds|].
  split; [left; unfold limits_fit; simpl; parts|]. split; [parts|intros ? []].
Qed.

(** ** Http *)
Lemma source_param_ok tmpl h f : recorded_source tmpl (source_param (parameter_source tmpl (fd_name f) h) f).
Proof.
  pose proof (proj1 (parameter_source_iff tmpl (fd_name f) h _) eq_refl) as H.
  unfold recorded_source. destruct (parameter_source tmpl (fd_name f) h) as [x| |k|]; simpl in *.
  - left. destruct H as (H & ->). auto.
  - right. left. destruct H. auto.
  - right. right. left. destruct H as (_ & H & H'). auto.
  - right. right. right. destruct H as (_ & H & H'). auto.
Qed.
Lemma source_param_field s f : ps_field (source_param s f) = f.
Proof. destruct s; reflexivity. Qed.
Lemma plain_limits ts : plain_spec ts -> limits_fit ts.
Proof.
  intros (H1 & H2 & H3 & H4 & H5 & H6 & H7). unfold limits_fit. rewrite H1, H2, H3, H4, H5, H6, H7.
  repeat apply conj; intros H; try destruct H; congruence.
Qed.
Lemma g_http_param n path name c : name <> "" ->
  givesT (parse_http_param X n path name c) (fun p => written_param p /\ recorded_source path p).
Proof.
  intros Hn. unfold parse_http_param. apply gives_bind. eapply gives_mono; [apply g_type_spec, g_elements|].
  intros ((ts & o0) & c') (H1 & H2 & H3). g1.
  apply gives_bind. eapply gives_mono; [apply g_any|]. intros (c2 & b) _. unfold gives.
  split.
  - unfold written_param. rewrite source_param_field. constructor; simpl; [|exact H3].
    split; [exact Hn|]. split; [apply Ha|]. apply plain_limits. exact H2.
  - exact (source_param_ok path (o_header a) (mkField name c2 (o_annos a) false (o_default a) ts)).
Qed.

Definition inputs_ok (path : string) (l : list paramspec) : Prop :=
  forall p, In p l -> written_param p /\ recorded_source path p.
Definition outputs_ok (path : string) (l : list paramspec) : Prop :=
  forall p, In p l -> written_param p /\ (recorded_source path p \/ entity_only p).
Lemma all_snoc {A} (P : A -> Prop) l x : (forall p, In p l -> P p) -> P x -> forall p, In p (l ++ [x]) -> P p.
Proof. intros H Hx p Hp. apply in_app_iff in Hp. destruct Hp as [Hp|[<-|[]]]; auto. Qed.

Lemma symbol_entity t : T_ t -> tk_type t = SYMBOL ->
  written_param (mkParam "" "" false (mkField "entity" "" [] false VNil (ts_of (tk_text t)))).
Proof.
  intros H E. unfold written_param. constructor; simpl; [|intros ? []].
  split; [discriminate|]. split; [apply vwf_simple; discriminate|]. apply plain_limits. unfold plain_spec; simpl; auto 12.
Qed.
Lemma g_http_expected n h c : written_http h ->
  givesT (parse_http_expected X n h c) (fun h' => written_http h').
Proof.
  intros (W1 & W2 & W3 & W4 & W5). unfold parse_http_expected. destruct (h_expected h); [exact I|].
  g1. rename a into status. g1.
  apply gives_bind. eapply gives_mono with (P := fun r => outputs_ok (h_path h) (fst r)).
  - apply gives_get; [intros t Ht|exact I]. destruct (tk_type t) eqn:K; try (unfold gives; intros ? F; exact (match F with end)).
    + unfold gives. simpl. intros p Hp. apply in_one in Hp. subst. split; [exact (symbol_entity t Ht K)|].
      right. unfold entity_only; simpl; auto.
    + apply gives_bind. eapply gives_mono; [apply g_any|]. intros c1 _.
      apply (gives_loop _ (fun outs => outputs_ok (h_path h) outs)); [|intros ? []].
      intros outs Ho. apply gives_bind. eapply gives_mono; [apply g_any|]. intros (d & c2) _.
      destruct d; [unfold gives; exact Ho|]. g1. destruct ((a0 =?s "expect") || (a0 =?s "except")); [exact I|].
      apply gives_bind. eapply gives_mono; [apply g_http_param; exact Ha1|]. intros p (Hp1 & Hp2). unfold gives.
      exact (all_snoc _ outs p Ho (conj Hp1 (or_introl Hp2))).
  - intros (outs & c1) Ho. simpl in Ho. apply gives_bind. eapply gives_mono; [apply g_any|]. intros c2 _. unfold gives.
    unfold written_http; simpl. repeat apply conj; auto. intros x Hx. injection Hx as <-. simpl. split; [exact Ha|exact Ho].
Qed.
Lemma NoDup_snoc {A} (l : list A) x : NoDup l -> ~ In x l -> NoDup (l ++ [x]).
Proof.
  intros H Hx. induction H as [|y l Hy H IH]; simpl; [constructor; [tauto|constructor]|].
  constructor; [|apply IH; simpl in Hx; tauto]. rewrite in_app_iff. simpl in *. intuition.
Qed.
Lemma g_http_exception n h c : written_http h ->
  givesT (parse_http_exception X n h c) (fun h' => written_http h').
Proof.
  intros (W1 & W2 & W3 & W4 & W5). unfold parse_http_exception.
  apply gives_bind. eapply gives_mono with (P := int32).
  - apply gives_get; [intros t Ht|exact I]. destruct (is_type NUMBER t).
    + change (givesT (expect_int 32) int32). apply g_int32.
    + unfold gives. unfold int32. lia.
  - intros status Hs. g1. destruct (str_mem a _) eqn:M; [exact I|].
    apply gives_bind. eapply gives_mono; [apply g_any|]. intros o _.
    apply gives_bind. eapply gives_mono; [apply g_any|]. intros c1 _. unfold gives.
    unfold written_http; simpl. repeat apply conj; auto.
    + rewrite map_app. simpl. apply NoDup_snoc; [exact W4|]. intros HI. apply str_mem_In in HI. congruence.
    + apply all_snoc; [exact W5|]. simpl. auto.
Qed.
Lemma g_http_spec n h c : written_http h -> givesT (parse_http_spec X n h c) written_http.
Proof.
  intros W. unfold parse_http_spec. g1. destruct (a =?s "expect"); [apply g_http_expected, W|].
  destruct (a =?s "except"); [apply g_http_exception, W|].
  apply gives_bind. eapply gives_mono; [apply g_http_param; exact Ha|]. intros p Hp. unfold gives.
  destruct W as (W1 & W2 & W3 & W4 & W5). unfold written_http; simpl. repeat apply conj; auto. apply all_snoc; auto.
Qed.
Lemma deep_required f : deep written_field f ->
  deep written_field (mkField (fd_name f) (fd_comment f) (fd_annos f) true (fd_default f) (fd_spec f)).
Proof. intros H. inversion H; subst. constructor; simpl; auto. Qed.
Lemma required_ok path p : written_param p /\ recorded_source path p ->
  written_param (set_required p) /\ recorded_source path (set_required p).
Proof. intros (H1 & H2). split; [apply deep_required, H1|exact H2]. Qed.
Lemma required_entity p : entity_only p -> entity_only (set_required p).
Proof. auto. Qed.
Lemma ensure_ok h : written_http h -> written_http (ensure_required_params h).
Proof.
  intros (W1 & W2 & W3 & W4 & W5). unfold written_http, ensure_required_params; simpl. repeat apply conj; auto.
  - intros p Hp. apply in_map_iff in Hp. destruct Hp as (q & <- & Hq). specialize (W2 q Hq).
    destruct (_ && _)%bool; [apply required_ok, W2|exact W2].
  - intros x Hx. destruct (h_expected h) as [y|]; [|discriminate]. simpl in Hx. injection Hx as <-.
    destruct (W3 y eq_refl) as (A & B). destruct (_ && _)%bool; simpl; [|auto]. split; [exact A|].
    intros p Hp. apply in_map_iff in Hp. destruct Hp as (q & <- & Hq). destruct (B q Hq) as (B1 & B2).
    destruct (ps_header q =?s ""); [|auto]. split; [apply deep_required, B1|]. exact B2.
Qed.
Lemma action_name_ok h : written_http h -> written_http (ensure_action_name h).
Proof. intros H. unfold ensure_action_name. destruct (h_name h =?s ""); exact H. Qed.
Lemma g_http n c : givesT (parse_http_directive X n c) written_http.
Proof.
  unfold parse_http_directive. g1. destruct (str_mem _ http_methods) eqn:M; simpl negb; cbv iota; [|exact I].
  apply str_mem_In in M.
  apply gives_bind. eapply gives_mono; [apply g_any|]. intros path _.
  apply gives_bind. eapply gives_mono; [apply g_any|]. intros o _.
  apply gives_get; [intros t Ht|exact I]. destruct (is_type OPEN_BRACE t); [|exact I].
  apply gives_bind. eapply gives_mono; [apply g_any|]. intros c1 _.
  apply gives_bind. eapply gives_mono with (P := written_http).
  - apply (gives_loop _ written_http).
    + intros h Hh. apply gives_bind. eapply gives_mono; [apply g_any|]. intros (d & c2) _.
      destruct d; [unfold gives; exact Hh|]. apply gives_bind. eapply gives_mono; [apply g_http_spec, Hh|].
      intros h' Hh'. unfold gives. exact Hh'.
    + unfold written_http; simpl. repeat apply conj; [exact M|intros ? []|discriminate|constructor|intros ? []].
  - intros h Hh. apply gives_bind. eapply gives_mono; [apply g_any|]. intros (c2 & b) _. unfold gives.
    apply ensure_ok, action_name_ok. exact Hh.
Qed.

(** ** Operations *)
Lemma g_op_section {A} n (P : A -> Prop) entry : (forall t, T_ t -> givesT (entry t) P) ->
  givesT (op_section n entry) (fun l => forall a, In a l -> P a).
Proof.
  intros H. unfold op_section. apply gives_get; [intros t Ht|exact I]. destruct (is_type OPEN_BRACE t); [|exact I].
  assert (G : forall t, (forall x, t = Some x -> T_ x) -> givesT (loop n (fun '((l, t) : list A * option token) =>
          match t with
          | None => Ret (inr [])
          | Some tok =>
              match tk_type tok with
              | CLOSE_BRACE => Ret (inr l)
              | NEWLINE => Get (fun t => match t with None => fail_eof | Some _ => Ret (inl (l, t)) end)
              | _ => a <~ entry tok ;; Get (fun t => Ret (inl (l ++ [a], t)))
              end
          end) ([], t)) (fun l => forall a, In a l -> P a)).
  { intros t0 Ht0. apply (gives_loop _ (fun '((l, t) : list A * option token) => (forall a, In a l -> P a) /\ forall x, t = Some x -> T_ x)).
    2:{ split; [intros ? []|exact Ht0]. }
    intros (l & [tok|]) (Hl & Htk); [|unfold gives; intros ? []]. specialize (Htk tok eq_refl).
    assert (En : givesT (a <~ entry tok ;; Get (fun t => Ret (inl (l ++ [a], t))))
      (fun r : (list A * option token) + list A => match r with
        | inl s' => let '(l, t) := s' in (forall a, In a l -> P a) /\ (forall x, t = Some x -> T_ x)
        | inr a => forall a0, In a0 a -> P a0 end)).
    { apply gives_bind. eapply gives_mono; [apply H, Htk|]. intros a Ha.
      apply gives_get; [intros t' Ht'|]; unfold gives; (split; [apply all_snoc; auto|]); [intros x Hx; injection Hx as <-; exact Ht'|discriminate]. }
    destruct (tk_type tok); try exact En.
    - apply gives_get; [intros t' Ht'|exact I]. unfold gives. split; [exact Hl|]. intros x Hx. injection Hx as <-. exact Ht'.
    - unfold gives. exact Hl. }
  apply gives_get.
  - intros t' Ht'. refine (G (Some t') _). intros x Hx. injection Hx as <-. exact Ht'.
  - refine (G None _). discriminate.
Qed.
Definition op_input_ok (f : fielddef) : Prop := fd_name f <> "" /\ ts_type (fd_spec f) <> "" /\ fd_default f = VNil.
Lemma g_op_input n t : T_ t -> givesT (op_input n t) op_input_ok.
Proof.
  intros Ht. unfold op_input. destruct (is_type SYMBOL t) eqn:E; simpl; [|exact I]. apply is_type_eq in E.
  unfold op_symbol. apply gives_get; [intros t' Ht'|exact I]. destruct (is_type SYMBOL t') eqn:E'; [|exact I]. apply is_type_eq in E'.
  apply gives_bind. eapply gives_mono; [apply g_any|]. intros req _. unfold gives, op_input_ok. simpl. auto.
Qed.
Lemma g_operation n c : givesT (parse_operation_directive X n c) written_op.
Proof.
  unfold parse_operation_directive. g1.
  apply gives_bind. eapply gives_mono; [apply g_any|]. intros o _.
  apply gives_bind. eapply gives_mono; [apply g_any|]. intros _ _.
  apply gives_bind. eapply gives_mono with (P := fun r => forall f, In f (fst (fst r)) -> op_input_ok f).
  - apply (gives_loop _ (fun r => forall f, In f (fst (fst r)) -> op_input_ok f)); [|intros ? []].
    intros ((ins & outs) & excs) Hi. simpl in Hi.
    apply gives_get; [intros t Ht|exact I]. destruct (tk_type t); try (unfold gives; exact Hi).
    destruct (tk_text t =?s "inputs").
    { apply gives_bind. eapply gives_mono; [apply g_op_section; intros t' Ht'; apply g_op_input, Ht'|]. intros i H. unfold gives. exact H. }
    destruct (tk_text t =?s "outputs").
    { apply gives_bind. eapply gives_mono; [apply g_any|]. intros x _. unfold gives. exact Hi. }
    destruct (tk_text t =?s "exceptions"); [|exact I].
    apply gives_bind. eapply gives_mono; [apply g_any|]. intros x _. unfold gives. exact Hi.
  - intros ((ins & outs) & excs) Hi. destruct o as [o|]; [|exact I]. unfold gives, written_op. simpl. split; [exact Ha|exact Hi].
Qed.
Lemma g_example n c : givesT (parse_example_directive X n c) (fun e => vwf (ex_example e)).
Proof.
  unfold parse_example_directive.
  apply gives_bind. eapply gives_mono; [apply g_any|]. intros t _.
  apply gives_bind. eapply gives_mono; [apply g_any|]. intros o _.
  apply gives_bind. eapply gives_mono; [apply g_literal_value|]. intros v Hv. unfold gives. exact Hv.
Qed.

(** ** Files *)
Variable E : penv.
Lemma written_comment sch c : written_schema sch -> written_schema (merge_sc_comment sch c).
Proof. intros H. exact H. Qed.
Lemma written_include sch inc f : written_schema sch -> written_schema inc ->
  givesT (include_into sch inc f) written_schema.
Proof.
  intros (A1 & A2 & A3 & A4) (B1 & B2 & B3 & B4). unfold include_into. destruct (new_model sch); try exact I.
  destruct (forallb _ _); [|exact I]. unfold gives, written_schema; simpl. repeat apply conj; auto.
  - intros td H. apply in_app_iff in H. destruct H as [H|H]; [auto|]. apply in_map_iff in H. destruct H as (x & <- & Hx).
    exact (B1 x Hx).
  - intros td H. apply in_app_iff in H. destruct H as [H|H]; [auto|]. apply in_map_iff in H. destruct H as (x & <- & Hx).
    exact (B2 x Hx).
  - intros td H. apply in_app_iff in H. destruct H as [H|H]; [auto|]. apply in_map_iff in H. destruct H as (x & <- & Hx).
    exact (B3 x Hx).
Qed.
Lemma g_directive n incl sch c kw : written_schema sch -> (forall f, givesT (incl f) written_schema) ->
  givesT (directive X n incl sch c kw) written_schema.
Proof.
  intros W HI. pose proof W as W'. destruct W' as (W1 & W2 & W3 & W4). unfold directive.
  destruct (kw =?s "name"). { apply gives_bind. eapply gives_mono; [apply g_any|]. intros x _. exact W. }
  destruct (kw =?s "namespace"). { apply gives_bind. eapply gives_mono; [apply g_any|]. intros x _. exact W. }
  destruct (kw =?s "version"). { apply gives_bind. eapply gives_mono; [apply g_any|]. intros x _. exact W. }
  destruct (kw =?s "type").
  { apply gives_bind. eapply gives_mono; [apply g_type_directive|]. intros x Hx. unfold gives, written_schema; simpl.
    repeat apply conj; auto. apply all_snoc; auto. }
  destruct (kw =?s "example").
  { apply gives_bind. eapply gives_mono; [apply g_example|]. intros x Hx. unfold gives, written_schema; simpl.
    repeat apply conj; auto. apply all_snoc; auto. }
  destruct (kw =?s "base"). { apply gives_bind. eapply gives_mono; [apply g_any|]. intros x _. exact W. }
  destruct (kw =?s "operation").
  { apply gives_bind. eapply gives_mono; [apply g_operation|]. intros x Hx. unfold gives, written_schema; simpl.
    repeat apply conj; auto. apply all_snoc; auto. }
  destruct (kw =?s "http").
  { apply gives_bind. eapply gives_mono; [apply g_http|]. intros x Hx. unfold gives, written_schema; simpl.
    repeat apply conj; auto. apply all_snoc; auto. }
  destruct (kw =?s "include").
  { apply gives_bind. eapply gives_mono; [apply g_any|]. intros f _.
    apply gives_bind. eapply gives_mono; [apply HI|]. intros inc Hinc. apply written_include; [exact W|exact Hinc]. }
  destruct (has_prefix "x_" kw); [|exact W].
  apply gives_bind. eapply gives_mono; [apply g_any|]. intros (v & c') _. exact W.
Qed.
Lemma g_read_schema n incl path : (forall f, givesT (incl f) written_schema) ->
  givesT (read_schema X E n incl path) written_schema.
Proof.
  intros HI. unfold read_schema. apply (gives_loop _ (fun r => written_schema (fst r))).
  2:{ unfold written_schema; simpl. repeat apply conj; intros ? []. }
  intros (sch & c) W. simpl in W. apply gives_get; [intros t Ht|exact W].
  destruct (tk_type t); try exact I; try exact W.
  apply gives_bind. eapply gives_mono; [apply g_directive; [exact W|exact HI]|]. intros sch' W'. exact W'.
Qed.
Lemma symbols_T toks : symbols_have_text toks -> Forall T_ toks.
Proof.
  intros H. apply Forall_forall. intros (ty & tx) Ht. unfold T_. simpl. intros ->. exact (H tx Ht).
Qed.
Lemma read_tokens_written incl path toks m : symbols_have_text toks -> (forall f, givesT (incl f) written_schema) ->
  read_tokens X E incl path toks = Ok m -> written_schema (m_schema m) /\ new_model (m_schema m) = Ok m.
Proof.
  intros HT HI H. unfold read_tokens in H.
  destruct (run _ _) as [[sch st]|e| |] eqn:R; try discriminate; [|destruct e; discriminate].
  pose proof (gives_run T_ _ _ _ _ _ (start_all T_ toks (symbols_T toks HT)) (g_read_schema _ incl path HI) R) as W.
  destruct (new_model sch) as [m'|e| |] eqn:N; try discriminate. injection H as <-.
  rewrite (schema_of_model sch m' N). split; [exact W|exact N].
Qed.
Definition files_have_text : Prop := forall f toks, e_files E f = Some toks -> symbols_have_text toks.
Lemma lift_written d f : (forall m, read_file X E d f = Ok m -> written_schema (m_schema m)) ->
  givesT (m <~ lift (read_file X E d f) ;; Ret (m_schema m)) written_schema.
Proof. intros H. destruct (read_file X E d f) as [m|e| |]; try exact I. exact (H m eq_refl). Qed.
Lemma read_file_written d : files_have_text -> forall f m, read_file X E d f = Ok m ->
  written_schema (m_schema m) /\ new_model (m_schema m) = Ok m.
Proof.
  intros HF. induction d as [|d IH]; intros f m H; simpl in H; [discriminate|].
  destruct (e_files E f) as [toks|] eqn:F; [|discriminate].
  apply (read_tokens_written _ f toks m) in H; [exact H|exact (HF f toks F)|].
  intros g. apply lift_written. intros m' Hm'. exact (proj1 (IH g m' Hm')).
Qed.
Lemma read_string_written d toks m : files_have_text -> symbols_have_text toks -> read_string X E d toks = Ok m ->
  written_schema (m_schema m) /\ new_model (m_schema m) = Ok m.
Proof.
  intros HF HT H. unfold read_string in H. apply (read_tokens_written _ "" toks m) in H; [exact H|exact HT|].
  intros g. apply lift_written. intros m' Hm'. exact (proj1 (read_file_written d HF g m' Hm')).
Qed.
End S.
