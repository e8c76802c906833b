(** The type names in a schema are words of the text. *)
From Verif Require Import GoStr Outcome Value Schema Scalars Time Model ModelFacts MemberFacts Misc ParserValidate Scan ScanFacts
  Parser ParserTerm ReadFacts Gives SpecModel SpecMisc SpecPV SpecParser PVFacts ValidateFacts CheckFacts InvFacts FileFacts.

Section N.
Variable N : string -> Prop.
Hypothesis N_any : N "Any".
Hypothesis N_string : N "String".
Hypothesis N_decimal : N "Decimal".
Hypothesis N_array : N "Array".
Hypothesis N_uuid : N "UUID".

Definition TN (t : token) : Prop := tk_type t = SYMBOL -> N (tk_text t).
Notation givesN := (gives TN).
Definition optN (s : string) : Prop := s = "" \/ N s.
Definition spec_named (ts : typespec) : Prop :=
  N (ts_type ts) /\ optN (ts_items ts) /\ optN (ts_keys ts) /\ optN (ts_value ts) /\ optN (ts_unit ts).
Definition field_named (f : fielddef) : Prop := deep (fun f => spec_named (fd_spec f)) f.
Definition fields_named (fs : list fielddef) : Prop := forall f, In f fs -> field_named f.
Definition type_named (td : typedef) : Prop := spec_named (td_spec td) /\ fields_named (ts_fields (td_spec td)).
Definition params_ok (l : list paramspec) : Prop := forall p, In p l -> N (ts_type (fd_spec (ps_field p))).
Definition http_named (h : httpdef) : Prop :=
  params_ok (h_inputs h) /\ forall x, h_expected h = Some x -> params_ok (xp_outputs x).
Definition target_named (t : string) : Prop := N t \/ exists a b, t = a +++ "." +++ b.
Definition schema_named (sch : schema) : Prop :=
  (forall td, In td (sc_types sch) -> type_named td) /\ (forall h, In h (sc_http sch) -> http_named h)
  /\ (forall e, In e (sc_examples sch) -> target_named (ex_target e)).

Lemma any_gives {A} (p : prog A) : givesN p (fun _ => True).
Proof. induction p as [b|e| | |k IH|p IH]; simpl; try exact I; [split; intros; apply IH|exact IH]. Qed.
Ltac skip := apply gives_bind; eapply gives_mono; [apply any_gives|].

Lemma n_identifier : givesN expect_identifier N.
Proof.
  unfold expect_identifier, assert_identifier. apply gives_get; [intros t Ht|exact I].
  destruct (is_type SYMBOL t) eqn:Q; [|exact I]. apply is_type_eq in Q. exact (Ht Q).
Qed.
Lemma n_compound n : givesN (expect_compound n) target_named.
Proof.
  induction n as [|n IH]; [exact I|]. cbn [expect_compound]. apply gives_bind. eapply gives_mono; [apply n_identifier|].
  intros s Hs. apply gives_get; [intros t Ht|left; exact Hs]. destruct (is_type DOT t); [|left; exact Hs].
  apply gives_bind. eapply gives_mono; [exact IH|]. intros ss _. right. exists s, ss. reflexivity.
Qed.

Section S.
Variable X : ext.
Definition te_named (te : telems) : Prop :=
  N (te_type te) /\ fields_named (opt_list (te_fields te)) /\ (forall p, In p (opt_list (te_params te)) -> N p).
Lemma n_array ps : (forall p, In p ps -> N p) -> givesN (array_params ps) N.
Proof. intros H. destruct ps as [|a [|b ps]]; simpl; [exact N_any|apply H; simpl; auto|exact I]. Qed.
Lemma n_map ps : (forall p, In p ps -> N p) -> givesN (map_params ps) (fun '(k, i) => N k /\ N i).
Proof.
  intros H. destruct ps as [|a [|b [|c ps]]]; simpl; try exact I; [split; assumption|].
  split; apply H; simpl; auto.
Qed.
Lemma n_unit ps : (forall p, In p ps -> N p) -> givesN (unit_params ps) (fun '(k, i) => N k /\ N i).
Proof.
  intros H. destruct ps as [|a [|b [|c ps]]]; simpl; try exact I; [split; assumption|].
  split; apply H; simpl; auto.
Qed.
Lemma n_type_spec_of te : te_named te -> givesN (type_spec_of te) (fun ts => spec_named ts /\ fields_named (ts_fields ts)).
Proof.
  intros (H1 & H2 & H3). unfold type_spec_of, spec_named, optN.
  destruct ((_ || _)%bool).
  { apply gives_bind. eapply gives_mono; [apply n_array, H3|]. intros i Hi. unfold gives; simpl. auto 10. }
  destruct (te_type te =?s "Map").
  { apply gives_bind. eapply gives_mono; [apply n_map, H3|]. intros (k & i) (Hk & Hi). unfold gives; simpl. auto 10. }
  destruct (te_type te =?s "UnitValue").
  { apply gives_bind. eapply gives_mono; [apply n_unit, H3|]. intros (k & i) (Hk & Hi). unfold gives; simpl. auto 10. }
  destruct (opt_list (te_params te)); [|exact I]. unfold gives; simpl. auto 10.
Qed.
Lemma n_type_spec elems c : givesN elems te_named ->
  givesN (parse_type_spec elems c) (fun '(ts, o, c') => spec_named ts /\ fields_named (ts_fields ts)).
Proof.
  intros H. unfold parse_type_spec. apply gives_bind. eapply gives_mono; [exact H|]. intros te Hte.
  apply gives_bind. eapply gives_mono; [apply n_type_spec_of, Hte|]. intros ts Hts. exact Hts.
Qed.
Lemma n_struct_field n elems : givesN elems te_named ->
  givesN (parse_struct_field X n elems) (fun r => forall f, r = Some f -> field_named f).
Proof.
  intros H. unfold parse_struct_field. skip. intros [c|] _; [|unfold gives; discriminate].
  skip. intros nm _. apply gives_bind. eapply gives_mono; [apply n_type_spec, H|]. intros ((ts & o0) & c') (H1 & H2).
  skip. intros o _. skip. intros (c2 & b) _. unfold gives. intros f Hf. injection Hf as <-. constructor; simpl; [exact H1|exact H2].
Qed.
Lemma n_collect {A} n (P : A -> Prop) item : givesN item (fun r => forall a, r = Some a -> P a) ->
  givesN (collect n item) (fun l => forall a, In a l -> P a).
Proof.
  intros H. unfold collect. apply (gives_loop _ (fun l => forall a, In a l -> P a)); [|intros ? []].
  intros l Hl. apply gives_bind. eapply gives_mono; [exact H|]. intros [a|] Ha; unfold gives; [|exact Hl].
  apply all_snoc; auto.
Qed.
Lemma n_angle n s : N s -> givesN (parse_angle n s) te_named.
Proof.
  intros Hs.
  assert (G : forall ty ex, N ty -> givesN (loop n (fun ps => Get (fun t => match t with
      | None => fail_eof
      | Some tok =>
          match tk_type tok with
          | COMMA => Ret (inl ps)
          | CLOSE_ANGLE =>
              if match ex with Some n => negb (n =? length ps)%nat | None => false end then fail_syntax
              else Ret (inr (mkTE ty (match ps with [] => None | _ => Some ps end) None [] no_options ""))
          | SYMBOL => Ret (inl (ps ++ [tk_text tok]))
          | _ => fail_syntax
          end
      end)) []) te_named).
  { intros ty ex Hty. apply (gives_loop _ (fun ps => forall p, In p ps -> N p)); [|intros ? []].
    intros ps Hps. apply gives_get; [intros t Ht|exact I]. destruct (tk_type t) eqn:K; try exact I.
    - unfold gives. apply all_snoc; [exact Hps|exact (Ht K)].
    - unfold gives. exact Hps.
    - match goal with |- gives _ (if ?b then _ else _) _ => destruct b end; [exact I|]. unfold gives.
      split; [exact Hty|]. split; [intros ? []|]. simpl. destruct ps; simpl; [intros ? []|exact Hps]. }
  unfold parse_angle. destruct (_ || _)%bool; [exact (G "Array" (Some 1) N_array)|].
  destruct (_ || _)%bool; [exact (G s (Some 2) Hs)|]. destruct (s =?s "Union"); [exact (G s None Hs)|exact I].
Qed.
Lemma n_elements n : givesN (type_spec_elements X n) te_named.
Proof.
  induction n as [|n IH]; [exact I|]. cbn [type_spec_elements].
  apply gives_bind. eapply gives_mono; [apply n_identifier|]. intros a Ha.
  assert (Pl : forall els o c, te_named (mkTE a None None els o c)).
  { intros els o c. split; [exact Ha|]. split; intros ? []. }
  apply gives_get; [|apply Pl].
  intros t Ht. destruct (is_type OPEN_ANGLE t); [apply n_angle, Ha|].
  destruct (str_mem a _); [|apply Pl].
  skip. intros (tok & o) _. destruct (is_type OPEN_BRACE tok); [|apply Pl].
  skip. intros c _. skip. intros _ _. destruct (a =?s "Enum").
  - skip. intros els _. skip. intros (c' & b) _. apply Pl.
  - apply gives_bind. eapply gives_mono; [apply n_collect, n_struct_field, IH|]. intros fs Hfs.
    skip. intros (c' & b) _. change (te_named (mkTE a None (some_list fs) [] o c')).
    split; [exact Ha|]. split; [|intros ? []]. simpl. unfold some_list. destruct fs; simpl; [intros ? []|exact Hfs].
Qed.
Lemma n_simple n acc name c ts :
  givesN (simple_def X n acc name c ts) (fun td => exists o, td_spec td = with_options ts o).
Proof.
  unfold simple_def, type_options. apply gives_bind. apply gives_bind. eapply gives_mono; [apply any_gives|]. intros o _.
  unfold gives. fold (@gives TN typedef). skip. intros c' _. unfold gives. simpl. eauto.
Qed.
Lemma n_type_directive n c : givesN (parse_type_directive X n c) type_named.
Proof.
  unfold parse_type_directive. skip. intros name _.
  apply gives_bind. eapply gives_mono; [apply n_elements|]. intros te (H1 & H2 & H3).
  set (t := te_type te) in *. set (c' := merge_comment _ _).
  assert (W : forall o, type_named (mkTD name c' [] (with_options (ts_of t) o))).
  { intros o. split; [|intros ? []]. unfold spec_named, optN; simpl. auto 10. }
  assert (Si : forall acc, givesN (simple_def X n acc name c' (ts_of t)) type_named).
  { intros acc. eapply gives_mono; [apply n_simple|]. intros td (o & E). unfold type_named. rewrite E. exact (W o). }
  destruct (str_mem t ["Any"; "Bool"; "Timestamp"]); [apply Si|].
  destruct (str_mem t numeric_types); [apply Si|].
  destruct (t =?s "Bytes"); [apply Si|].
  destruct (t =?s "String") eqn:Es.
  { apply gives_bind. eapply gives_mono; [apply n_simple|]. intros td (o & E). unfold gives.
    rewrite E. destruct (_ =?s regex_uuid) eqn:U; [|unfold type_named; rewrite E; exact (W o)].
    split; [|intros ? []]. unfold spec_named, optN. simpl. auto 10. }
  destruct (t =?s "UUID"); [apply Si|].
  destruct (t =?s "UnitValue").
  { skip. intros (ts & a) _. apply gives_bind. eapply gives_mono; [apply n_unit, H3|]. intros (v & u) (Hv & Hu).
    skip. intros c2 _. unfold gives. split; [|intros ? []]. unfold spec_named, optN; simpl; auto 10. }
  destruct ((_ || _)%bool).
  { apply gives_bind. eapply gives_mono; [apply n_array, H3|]. intros i Hi. eapply gives_mono; [apply n_simple|].
    intros td (o & E). unfold type_named. rewrite E. split; [|intros ? []]. unfold spec_named, optN; simpl; auto 10. }
  destruct (t =?s "Map").
  { apply gives_bind. eapply gives_mono; [apply n_map, H3|]. intros (k & i) (Hk & Hi). eapply gives_mono; [apply n_simple|].
    intros td (o & E). unfold type_named. rewrite E. split; [|intros ? []]. unfold spec_named, optN; simpl; auto 10. }
  destruct (t =?s "Struct").
  { skip. intros o _. unfold gives. split; [|exact H2]. unfold spec_named, optN; simpl; auto 10. }
  destruct (t =?s "Enum").
  { unfold gives. split; [|intros ? []]. unfold spec_named, optN; simpl; auto 10. }
  destruct (t =?s "Union"); [|exact I]. skip. intros (ts & a) _. skip. intros vs _. skip. intros c2 _. unfold gives.
  split; [|intros ? []]. unfold spec_named, optN; simpl; auto 10.
Qed.

Definition param_named (p : paramspec) : Prop := N (ts_type (fd_spec (ps_field p))).
Lemma n_http_param n path name c : givesN (parse_http_param X n path name c) param_named.
Proof.
  unfold parse_http_param. apply gives_bind. eapply gives_mono; [apply n_type_spec, n_elements|].
  intros ((ts & o0) & c') ((H1 & _) & _). skip. intros o _. skip. intros (c2 & b) _. unfold gives, param_named.
  rewrite source_param_field. exact H1.
Qed.
Lemma n_http_spec n h c : http_named h -> givesN (parse_http_spec X n h c) http_named.
Proof.
  intros (W1 & W2). unfold parse_http_spec. skip. intros a _. destruct (a =?s "expect").
  { unfold parse_http_expected. destruct (h_expected h); [exact I|]. skip. intros st _. skip. intros o _.
    apply gives_bind. eapply gives_mono with (P := fun r => params_ok (fst r)).
    - apply gives_get; [intros t Ht|exact I]. destruct (tk_type t) eqn:K; try (unfold gives; intros ? F; exact (match F with end)).
      + unfold gives. simpl. intros p Hp. apply in_one in Hp. subst. exact (Ht K).
      + skip. intros c1 _. apply (gives_loop _ params_ok); [|intros ? []]. intros outs Ho. skip. intros (d & c2) _.
        destruct d; [exact Ho|]. skip. intros nm _. destruct ((_ || _)%bool); [exact I|].
        apply gives_bind. eapply gives_mono; [apply n_http_param|]. intros p Hp. unfold gives. exact (all_snoc _ outs p Ho Hp).
    - intros (outs & c1) Ho. skip. intros c2 _. unfold gives. split; [exact W1|]. simpl. intros x Hx. injection Hx as <-. exact Ho. }
  destruct (a =?s "except").
  { unfold parse_http_exception. skip. intros st _. skip. intros ty _. destruct (str_mem _ _); [exact I|].
    skip. intros o _. skip. intros c1 _. exact (conj W1 W2). }
  apply gives_bind. eapply gives_mono; [apply n_http_param|]. intros p Hp. unfold gives.
  split; [|exact W2]. simpl. exact (all_snoc _ _ p W1 Hp).
Qed.
Lemma n_http n c : givesN (parse_http_directive X n c) http_named.
Proof.
  unfold parse_http_directive. skip. intros sym _. destruct (negb _); [exact I|].
  skip. intros path _. skip. intros o _. apply gives_get; [intros t Ht|exact I]. destruct (is_type OPEN_BRACE t); [|exact I].
  skip. intros c1 _. apply gives_bind. eapply gives_mono with (P := http_named).
  - apply (gives_loop _ http_named).
    + intros h Hh. skip. intros (d & c2) _. destruct d; [exact Hh|]. apply gives_bind. eapply gives_mono; [apply n_http_spec, Hh|].
      intros h' Hh'. exact Hh'.
    + split; [intros ? []|discriminate].
  - intros h (H1 & H2). skip. intros (c2 & b) _. unfold gives.
    assert (A : http_named (ensure_action_name (set_http_comment h c2))).
    { unfold ensure_action_name. destruct (_ =?s ""); split; assumption. }
    destruct A as (A1 & A2). split; simpl.
    + intros p Hp. apply in_map_iff in Hp. destruct Hp as (q & <- & Hq). specialize (A1 q Hq). destruct (_ && _)%bool; exact A1.
    + intros x Hx. destruct (h_expected (ensure_action_name (set_http_comment h c2))) as [y|]; [|discriminate]. simpl in Hx. injection Hx as <-.
      specialize (A2 y eq_refl). destruct (_ && _)%bool; simpl; [|exact A2].
      intros p Hp. apply in_map_iff in Hp. destruct Hp as (q & <- & Hq). specialize (A2 q Hq). destruct (ps_header q =?s ""); exact A2.
Qed.

Variable E : penv.
Lemma n_directive n incl sch c kw : schema_named sch -> (forall f, givesN (incl f) schema_named) ->
  givesN (directive X n incl sch c kw) schema_named.
Proof.
  intros W HI. pose proof W as W'. destruct W' as (W1 & W2 & W3). unfold directive.
  destruct (kw =?s "name"). { skip. intros x _. exact W. }
  destruct (kw =?s "namespace"). { skip. intros x _. exact W. }
  destruct (kw =?s "version"). { skip. intros x _. exact W. }
  destruct (kw =?s "type").
  { apply gives_bind. eapply gives_mono; [apply n_type_directive|]. intros x Hx. unfold gives, schema_named; simpl.
    split; [exact (all_snoc _ _ x W1 Hx)|split; assumption]. }
  destruct (kw =?s "example").
  { apply gives_bind. eapply gives_mono with (P := fun e => target_named (ex_target e)).
    - unfold parse_example_directive. apply gives_bind. eapply gives_mono; [apply n_compound|]. intros t Ht.
      skip. intros o _. skip. intros v _. exact Ht.
    - intros x Hx. unfold gives, schema_named; simpl. split; [|split]; [assumption|assumption|exact (all_snoc (fun e => target_named (ex_target e)) _ x W3 Hx)]. }
  destruct (kw =?s "base"). { skip. intros x _. exact W. }
  destruct (kw =?s "operation"). { skip. intros x _. exact W. }
  destruct (kw =?s "http").
  { apply gives_bind. eapply gives_mono; [apply n_http|]. intros x Hx. unfold gives, schema_named; simpl.
    split; [|split]; [assumption|exact (all_snoc _ _ x W2 Hx)|assumption]. }
  destruct (kw =?s "include").
  { skip. intros f _. apply gives_bind. eapply gives_mono; [apply HI|]. intros inc (I1 & I2 & I3).
    unfold include_into. destruct (new_model _); try exact I. destruct (forallb _ _); [|exact I].
    unfold gives, schema_named; simpl. repeat apply conj; auto.
    - intros td H. apply in_app_iff in H. destruct H as [H|H]; [auto|]. apply in_map_iff in H. destruct H as (x & <- & Hx). exact (I1 x Hx).
    - intros td H. apply in_app_iff in H. destruct H as [H|H]; [auto|]. apply in_map_iff in H. destruct H as (x & <- & Hx). exact (I2 x Hx). }
  destruct (has_prefix "x_" kw); [|exact W]. skip. intros (v & c') _. exact W.
Qed.
Lemma n_read_schema n incl path : (forall f, givesN (incl f) schema_named) ->
  givesN (read_schema X E n incl path) schema_named.
Proof.
  intros HI. unfold read_schema. apply (gives_loop _ (fun r => schema_named (fst r))).
  2:{ unfold schema_named; simpl. repeat apply conj; intros ? []. }
  intros (sch & c) W. simpl in W. apply gives_get; [intros t Ht|exact W].
  destruct (tk_type t); try exact I; try exact W.
  apply gives_bind. eapply gives_mono; [apply n_directive; [exact W|exact HI]|]. intros sch' W'. exact W'.
Qed.
Definition words_named (toks : list token) : Prop := forall s, In (mkTok SYMBOL s) toks -> N s.
Lemma read_tokens_named incl path toks m : words_named toks -> (forall f, givesN (incl f) schema_named) ->
  read_tokens X E incl path toks = Ok m -> schema_named (m_schema m).
Proof.
  intros HT HI H. unfold read_tokens in H.
  destruct (run _ _) as [[sch st]|e| |] eqn:R; try discriminate; [|destruct e; discriminate].
  assert (HF : Forall TN toks).
  { apply Forall_forall. intros (ty & tx) Ht. unfold TN. simpl. intros ->. exact (HT tx Ht). }
  pose proof (gives_run TN _ _ _ _ _ (start_all TN toks HF) (n_read_schema _ incl path HI) R) as W.
  destruct (new_model sch) as [m'|e| |] eqn:Nm; try discriminate. injection H as <-.
  rewrite (schema_of_model sch m' Nm). exact W.
Qed.
Lemma lift_named d f : (forall m, read_file X E d f = Ok m -> schema_named (m_schema m)) ->
  givesN (m <~ lift (read_file X E d f) ;; Ret (m_schema m)) schema_named.
Proof. intros H. destruct (read_file X E d f) as [m|e| |]; try exact I. exact (H m eq_refl). Qed.
Lemma read_file_named d : (forall f toks, e_files E f = Some toks -> words_named toks) ->
  forall f m, read_file X E d f = Ok m -> schema_named (m_schema m).
Proof.
  intros HF. induction d as [|d IH]; intros f m H; simpl in H; [discriminate|].
  destruct (e_files E f) as [toks|] eqn:F; [|discriminate].
  apply (read_tokens_named _ f toks m) in H; [exact H|exact (HF f toks F)|].
  intros g. apply lift_named. intros m' Hm'. exact (IH g m' Hm').
Qed.
Lemma read_string_named d toks m : (forall f toks, e_files E f = Some toks -> words_named toks) ->
  words_named toks -> read_string X E d toks = Ok m -> schema_named (m_schema m).
Proof.
  intros HF HT H. unfold read_string in H. apply (read_tokens_named _ "" toks m) in H; [exact H|exact HT|].
  intros g. apply lift_named. intros m' Hm'. exact (read_file_named d HF g m' Hm').
Qed.
End S.
End N.

(** ** Termination of the checks for texts without [Union] and [List] *)
Definition tame (s : string) : Prop := s <> "Union" /\ s <> "List".
Section T.
Variable X : ext.
Variable sch : schema.
Variable m : model.
Hypothesis Hm : new_model sch = Ok m.
Hypothesis HN : schema_named tame sch.
Hypothesis HW : written_schema sch.

Definition tame_spec (ts : typespec) : Prop := spec_named tame ts /\ fields_named tame (ts_fields ts).
Lemma opt_tame s : optN tame s -> tame s.
Proof. intros [->|H]; [split; discriminate|exact H]. Qed.
Lemma defines_tame n ts : tame n -> defines sch n ts -> tame_spec ts.
Proof.
  intros Hn (td & [[H ->]|[H E]] & <-).
  - split; [|intros ? []]. unfold spec_named, optN; simpl. auto 10.
  - destruct HN as (N1 & _). exact (N1 td H).
Qed.
Lemma leads_tame ts ts' : leads sch ts ts' -> tame_spec ts -> tame_spec ts'.
Proof.
  induction 1 as [ts|ts ts' t2 (R1 & R2) L IH|ts f t2 S I L IH|ts ts' t2 K A D L IH|ts ts' t2 K D L IH]; intros H; auto; apply IH.
  - apply (defines_tame (ts_type ts)); [apply H|exact R2].
  - destruct (proj2 H f I) as [g G1 G2]. split; [exact G1|exact G2].
  - apply (defines_tame (ts_items ts)); [apply opt_tame, H|exact D].
  - destruct D as [D|D]; eapply defines_tame; try exact D; apply opt_tame, H.
Qed.
Lemma tame_ends ts : tame_spec ts -> ends_spec sch ts.
Proof.
  intros H ts' L. apply (ranked_names_end sch (fun _ => 0)).
  - intros td Ht. left. destruct HW as (W1 & _). destruct (W1 td Ht) as (_ & W & _). destruct HN as (N1 & _).
    destruct (N1 td Ht) as ((N & _) & _). destruct N as (A & B). simpl in W. unfold kinds. simpl. intuition congruence.
  - apply (leads_tame ts ts' L H).
Qed.
Lemma parsed_finishes : exists N, forall fuel, N <= fuel -> parser_validate X m fuel <> OutOfFuel.
Proof.
  destruct HN as (N1 & N2 & N3). apply (parser_validate_finishes X sch m Hm).
  - intros td Ht _. apply tame_ends. exact (N1 td Ht).
  - intros ex ts He Ht. apply tame_ends.
    assert (K1 : ex_target ex <> "Union").
    { destruct (N3 ex He) as [[A B]|(a & b & E)]; [exact A|]. rewrite E. clear. intros F.
      do 6 (destruct a as [|? a]; [discriminate F|try (simpl in F; injection F; clear F; intros F; intros)]; try discriminate F). }
    destruct Ht as [n ts D|t f ts fs1 fd fs2 ND Ht0 Hc D Hs Hf Hfd _].
    + destruct D as (td & [[H ->]|[H E]] & <-).
      * split; [|intros ? []]. unfold spec_named, optN, tame; simpl. repeat apply conj; auto; simpl in H; intuition congruence.
      * exact (N1 td H).
    + assert (G : fields_named tame (ts_fields ts)).
      { destruct D as (td & [[H ->]|[H E]] & <-); [intros ? []|exact (proj2 (N1 td H))]. }
      destruct (G fd) as [g G1 G2]; [rewrite Hf; apply in_or_app; simpl; auto|]. split; assumption.
  - intros h Hh. destruct (N2 h Hh) as (A & B). split.
    + intros p ts Hp D. apply tame_ends. eapply defines_tame; [exact (A p Hp)|exact D].
    + intros x Hx p ts Hp D. apply tame_ends. eapply defines_tame; [exact (B x Hx p Hp)|exact D].
Qed.
End T.

Lemma parse_finishes X E d toks :
  files_have_text E -> symbols_have_text toks ->
  (forall f ft w, e_files E f = Some ft -> In w ["Union"; "List"] -> word_absent w ft) ->
  (forall w, In w ["Union"; "List"] -> word_absent w toks) ->
  read_string X E d toks <> OutOfFuel ->
  exists N, forall vfuel, N <= vfuel -> parse_sadl_string X E d vfuel toks <> OutOfFuel.
Proof.
  intros F1 F2 U1 U2 R. destruct (read_string X E d toks) as [m|e| |] eqn:Q; try congruence.
  - pose proof (read_string_written X E d toks m F1 F2 Q) as (W & Nm).
    assert (NN : schema_named tame (m_schema m)).
    { refine (read_string_named tame _ _ _ _ _ X E d toks m _ _ Q); try (split; discriminate).
      - intros f ft Hf s Hs. split; intros ->; [apply (U1 f ft "Union" Hf)|apply (U1 f ft "List" Hf)]; simpl; auto.
      - intros s Hs. split; intros ->; [apply (U2 "Union")|apply (U2 "List")]; simpl; auto. }
    destruct (parsed_finishes X (m_schema m) m Nm NN W) as (N & HN). exists N. intros vfuel Hv.
    unfold parse_sadl_string. rewrite Q. simpl. specialize (HN vfuel Hv).
    destruct (parser_validate X m vfuel); simpl; congruence.
  - exists 0. intros. unfold parse_sadl_string. rewrite Q. discriminate.
  - exists 0. intros. unfold parse_sadl_string. rewrite Q. discriminate.
Qed.
