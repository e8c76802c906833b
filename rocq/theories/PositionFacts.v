(** Option lists in the positions where the language has them. *)
From Verif Require Import GoStr Outcome Value Schema Scalars Model Misc ParserValidate Scan ScanFacts Parser Acts SpecText SpecOptions LiteralFacts OptionFacts.

(** ** Inversion of successful runs *)
Lemma run_bind_inv {A B} (p : prog A) (g : A -> prog B) st b st2 : run (bind p g) st = Ok (b, st2) ->
  exists a st1, run p st = Ok (a, st1) /\ run (g a) st1 = Ok (b, st2).
Proof.
  rewrite run_bind. destruct (run p st) as [[a st1]|e| |]; simpl; try discriminate. eauto.
Qed.
Lemma run_get_inv {A} (k : option token -> prog A) st t r x : pending st = t :: r -> run (Get k) st = x ->
  exists st1, fresh st1 t /\ pending st1 = r /\ run (k (Some t)) st1 = x.
Proof.
  intros P R. simpl in R. pose proof (get_token_spec st) as G. destruct (get_token st) as [[t'|] st'].
  - destruct G as (G & F). rewrite P in G. injection G as -> ->. eauto.
  - destruct G as (G & _). congruence.
Qed.
Lemma run_get_eof {A} (k : option token -> prog A) st x : pending st = [] -> run (Get k) st = x ->
  exists st1, pending st1 = [] /\ run (k None) st1 = x.
Proof.
  intros P R. simpl in R. pose proof (get_token_spec st) as G. destruct (get_token st) as [[t'|] st'].
  - destruct G as (G & _). congruence.
  - destruct G as (_ & G & _). eauto.
Qed.
Lemma run_unget_inv {A} (p : prog A) st t x : fresh st t -> run (Unget p) st = x ->
  exists st1, pending st1 = t :: pending st /\ run p st1 = x.
Proof. intros F R. simpl in R. exists (unget_token st). split; [apply unget_token_spec, F|exact R]. Qed.
Lemma run_ret_inv {A} (a b : A) st st' : run (Ret a) st = Ok (b, st') -> b = a /\ st' = st.
Proof. simpl. injection 1 as <- <-. auto. Qed.

Lemma identifier_inv st s st' : run expect_identifier st = Ok (s, st') -> pending st = word s :: pending st'.
Proof. intros R. apply (acts_run _ _ _ _ _ a_identifier) in R. apply f_text_some in R. exact R. Qed.
Lemma string_inv st s st' : run expect_string st = Ok (s, st') -> pending st = mkTok STRING s :: pending st'.
Proof. intros R. apply (acts_run _ _ _ _ _ a_string) in R. apply f_text_some in R. exact R. Qed.

(** ** ParseOptions *)
Lemma options_inv X n acc st o st' : run (parse_options X n acc) st = Ok (o, st') ->
  exists os, opt_part X acc (pending st) os (pending st') /\ recorded os o.
Proof.
  intros R. apply (acts_run _ _ _ _ _ (a_options X n acc)) in R. apply options_sound in R as (os & H & ->).
  exists os. split; [exact H|]. apply recorded_all.
Qed.
Lemma options_run X n acc st os r : length (pending st) <= n -> opt_part X acc (pending st) os r ->
  exists o st', run (parse_options X n acc) st = Ok (o, st') /\ pending st' = r /\ recorded os o.
Proof.
  intros Hn H. pose proof (options_complete X n acc _ _ _ H Hn) as E.
  apply (run_acts _ _ _ _ _ (a_options X n acc)) in E as (st' & R & P). eexists _, st'. split; [exact R|].
  split; [exact P|]. apply recorded_all.
Qed.

(** ** The end of a statement *)
Definition eos_body (c : string) : list token -> option ((string + (string * bool)) * list token) :=
  case_list (Some (inr (c, true), [])) (fun t r =>
    match tk_type t with
    | SEMICOLON => Some (inl c, r)
    | LINE_COMMENT => Some (inl (merge_comment c (tk_text t)), r)
    | NEWLINE => Some (inr (c, true), r)
    | _ => Some (inr (c, false), r)
    end).
Lemma a_eos' n c : acts (end_of_statement' n c) (floop n eos_body c).
Proof.
  unfold end_of_statement'. apply acts_loop. intros s. apply acts_get'; [|intros st P; simpl; eauto].
  intros t. apply acts_any. destruct (tk_type t); apply acts_ret.
Qed.
Lemma eos_sound n : forall c l c' r, floop n eos_body c l = Some ((c', true), r) -> statement_end l r.
Proof.
  induction n as [|n IH]; intros c l c' r H; [discriminate|]. rewrite floop_step in H. destruct l as [|t l].
  - simpl in H. injection H as _ <-. constructor.
  - simpl in H. destruct (tk_type t) eqn:E; try discriminate.
    + apply se_skip; [right; exact E|]. eapply IH; eassumption.
    + injection H as _ <-. apply se_nl. exact E.
    + apply se_skip; [left; exact E|]. eapply IH; eassumption.
Qed.
Lemma eos_inv n c st c' st' : run (end_of_statement n c) st = Ok (c', st') -> statement_end (pending st) (pending st').
Proof.
  intros R. unfold end_of_statement in R. apply run_bind_inv in R as ((c1 & ok) & st1 & R1 & R2).
  destruct ok; [|discriminate]. apply run_ret_inv in R2 as (_ & ->).
  apply (acts_run _ _ _ _ _ (a_eos' n c)) in R1. eapply eos_sound, R1.
Qed.

(** ** Plain types *)
Definition plain_te (t : string) : telems := mkTE t None None [] no_options "".
Lemma elements_plain X n st t l te st' : pending st = word t :: l -> ~ In t ["Struct"; "Enum"; "Union"] ->
  (forall x r, l = x :: r -> ~ of_type OPEN_ANGLE x) ->
  run (type_spec_elements X n) st = Ok (te, st') -> te = plain_te t /\ pending st' = l.
Proof.
  intros P N A R. destruct n as [|n]; [discriminate|]. cbn [type_spec_elements] in R.
  apply run_bind_inv in R as (name & st1 & R1 & R). apply identifier_inv in R1. rewrite P in R1. injection R1 as <- E1.
  destruct l as [|x l].
  - apply run_get_eof in R as (st2 & P2 & R); [|symmetry; exact E1]. apply run_ret_inv in R as (-> & ->). auto.
  - apply (run_get_inv _ _ x l) in R as (st2 & F & P2 & R); [|symmetry; exact E1]. cbv beta iota in R.
    destruct (is_type OPEN_ANGLE x) eqn:OA; [apply is_type_eq in OA; destruct (A x l eq_refl OA)|].
    destruct (str_mem t ["Struct"; "Enum"; "Union"]) eqn:M; [apply str_mem_In in M; contradiction|].
    apply (run_unget_inv _ _ x) in R as (st3 & P3 & R); [|exact F]. apply run_ret_inv in R as (-> & ->).
    rewrite P3, P2. auto.
Qed.
Lemma elements_no_angle X n st t x l te st' : pending st = word t :: x :: l -> of_type OPEN_ANGLE x ->
  ~ In t ["Array"; "List"; "Map"; "UnitValue"; "Union"] -> run (type_spec_elements X n) st <> Ok (te, st').
Proof.
  intros P A N R. destruct n as [|n]; [discriminate|]. cbn [type_spec_elements] in R.
  apply run_bind_inv in R as (name & st1 & R1 & R). apply identifier_inv in R1. rewrite P in R1. injection R1 as <- E1.
  apply (run_get_inv _ _ x l) in R as (st2 & F & P2 & R); [|symmetry; exact E1]. cbv beta iota in R.
  apply is_type_eq in A. rewrite A in R. unfold parse_angle in R. cbv zeta in R.
  assert (forall s, In s ["Array"; "List"; "Map"; "UnitValue"; "Union"] -> t =?s s = false) as K.
  { intros s Hs. destruct (t =?s s) eqn:E; [|reflexivity]. apply seqb_eq in E. subst. contradiction. }
  rewrite !K in R by (simpl; tauto). discriminate.
Qed.

(** ** Types *)
Lemma simple_def_inv X n acc name c ts st td st' : run (simple_def X n acc name c ts) st = Ok (td, st') ->
  exists o os r, opt_part X acc (pending st) os r /\ statement_end r (pending st') /\ recorded os o
    /\ td_name td = name /\ td_annos td = o_annos o /\ td_spec td = with_options ts o.
Proof.
  intros R. unfold simple_def, type_options in R.
  apply run_bind_inv in R as ((ts1 & a) & st1 & R1 & R).
  apply run_bind_inv in R1 as (o & st2 & R1 & R2). apply run_ret_inv in R2 as (E & ->). injection E as -> ->.
  apply run_bind_inv in R as (c1 & st3 & R2 & R). apply run_ret_inv in R as (-> & ->).
  apply options_inv in R1 as (os & H & K). apply eos_inv in R2.
  exists o, os, (pending st2). simpl. auto 10.
Qed.
Lemma kept_with ts o : kept_in o (with_options ts o).
Proof. unfold kept_in, with_options. simpl. auto 10. Qed.
Lemma te_directive X n c st name te st1 td st' :
  run expect_identifier st = Ok (name, st1) ->
  run (parse_type_directive X n c) st = Ok (td, st') ->
  (exists st2, run (type_spec_elements X n) st1 = Ok (te, st2) /\ In (te_type te) option_kinds) ->
  exists st2 o os r, run (type_spec_elements X n) st1 = Ok (te, st2)
    /\ opt_part X (type_allows (te_type te)) (pending st2) os r /\ statement_end r (pending st') /\ recorded os o
    /\ td_name td = name /\ td_annos td = o_annos o /\ made (te_type te) o td.
Proof.
  intros RI R (st2 & RE & I). unfold parse_type_directive in R.
  apply run_bind_inv in R as (name' & st1' & R1 & R). rewrite RI in R1. injection R1 as <- <-.
  apply run_bind_inv in R as (te' & st2' & R1 & R). rewrite RE in R1. injection R1 as <- <-.
  exists st2. cbv zeta in R.
  assert (forall acc ts, ts_type ts = te_type te -> acc = type_allows (te_type te) ->
    run (simple_def X n acc name (merge_comment c (te_comment te)) ts) st2 = Ok (td, st') ->
    exists o os r, run (type_spec_elements X n) st1 = Ok (te, st2) /\ opt_part X (type_allows (te_type te)) (pending st2) os r
      /\ statement_end r (pending st') /\ recorded os o /\ td_name td = name /\ td_annos td = o_annos o /\ made (te_type te) o td) as W.
  { intros acc ts Ht -> H. apply simple_def_inv in H as (o & os & r & H1 & H2 & H3 & H4 & H5 & H6).
    exists o, os, r. do 6 (split; [assumption|]). right. rewrite H6. split; [exact Ht|apply kept_with]. }
  remember (te_type te) as t eqn:Et. clear Et.
  unfold option_kinds in I. simpl in I.
  repeat (destruct I as [<- |I]; [cbn [str_mem existsb String.eqb Ascii.eqb Bool.eqb orb numeric_types] in R|]); try contradiction.
  all: try (eapply W; [| |exact R]; reflexivity).
  - apply run_bind_inv in R as (td1 & st3 & R1 & R). apply run_ret_inv in R as (Etd & ->).
    apply simple_def_inv in R1 as (o & os & r & H1 & H2 & H3 & H4 & H5 & H6). exists o, os, r.
    split; [exact RE|]. split; [exact H1|]. split; [exact H2|]. split; [exact H3|].
    destruct (ts_pattern (td_spec td1) =?s regex_uuid) eqn:P.
    + subst td. simpl. split; [reflexivity|]. split; [exact H5|]. left. split; [reflexivity|].
      apply seqb_eq in P. rewrite H6 in P. simpl in P. auto.
    + subst td. split; [exact H4|]. split; [exact H5|]. right. rewrite H6. split; [reflexivity|apply kept_with].
  - apply run_bind_inv in R as (i & st3 & R1 & R).
    assert (st3 = st2) as ->.
    { unfold array_params in R1. destruct (opt_list (te_params te)) as [|? [|? ?]]; try discriminate;
      apply run_ret_inv in R1 as (_ & R1); exact R1. }
    eapply W; [| |exact R]; reflexivity.
  - apply run_bind_inv in R as ((k & i) & st3 & R1 & R).
    assert (st3 = st2) as ->.
    { unfold map_params in R1. destruct (opt_list (te_params te)) as [|? [|? [|? ?]]]; try discriminate;
      apply run_ret_inv in R1 as (_ & R1); exact R1. }
    eapply W; [| |exact R]; reflexivity.
Qed.

Lemma elements_head X n st t l r te st' : type_head t l r -> pending st = l ->
  run (type_spec_elements X n) st = Ok (te, st') ->
  te_type te = t /\ pending st' = r /\ te_options te = no_options /\ te_fields te = None /\ te_elements te = [] /\ te_comment te = "".
Proof.
  intros H P R. destruct H as [t r N A|w i o c r W O C|k i o m c r O M C].
  - apply (elements_plain _ _ _ t r) in R as (-> & R); auto 10.
  - destruct n as [|n]; [discriminate|]. cbn [type_spec_elements] in R.
    apply run_bind_inv in R as (name & st1 & R1 & R). apply identifier_inv in R1. rewrite P in R1. injection R1 as <- E1.
    symmetry in E1. apply (run_get_inv _ _ o (word i :: c :: r)) in R as (st2 & F & P2 & R); [|exact E1]. cbv beta iota in R.
    apply is_type_eq in O. rewrite O in R. unfold parse_angle in R. cbv zeta in R.
    assert ((w =?s "Array") || (w =?s "List") = true) as Ew.
    { destruct W as [<- |[<- |[]]]; reflexivity. }
    rewrite Ew in R. clear Ew.
    destruct n as [|n]; [discriminate|]. cbn [loop] in R. apply run_bind_inv in R as (x & st3 & R1 & R).
    apply (run_get_inv _ _ _ _ _ P2) in R1 as (st4 & _ & P4 & R1). cbv beta iota in R1. cbn [word tk_type tk_text app] in R1.
    apply run_ret_inv in R1 as (-> & ->).
    destruct n as [|n]; [discriminate|]. cbn [loop] in R. apply run_bind_inv in R as (x & st5 & R1 & R).
    apply (run_get_inv _ _ _ _ _ P4) in R1 as (st6 & _ & P6 & R1). cbv beta iota in R1. unfold of_type in C. rewrite C in R1.
    cbn [length negb Nat.eqb] in R1. apply run_ret_inv in R1 as (-> & ->). apply run_ret_inv in R as (-> & ->).
    simpl. auto 10.
  - destruct n as [|n]; [discriminate|]. cbn [type_spec_elements] in R.
    apply run_bind_inv in R as (name & st1 & R1 & R). apply identifier_inv in R1. rewrite P in R1. injection R1 as <- E1.
    symmetry in E1. apply (run_get_inv _ _ o (word k :: m :: word i :: c :: r)) in R as (st2 & F & P2 & R); [|exact E1]. cbv beta iota in R.
    apply is_type_eq in O. rewrite O in R. unfold parse_angle in R. cbv zeta in R.
    change (("Map" =?s "Array") || ("Map" =?s "List")) with false in R.
    change (("Map" =?s "Map") || ("Map" =?s "UnitValue")) with true in R. cbv iota in R.
    destruct n as [|n]; [discriminate|]. cbn [loop] in R. apply run_bind_inv in R as (x & st3 & R1 & R).
    apply (run_get_inv _ _ _ _ _ P2) in R1 as (st4 & _ & P4 & R1). cbv beta iota in R1. cbn [word tk_type tk_text app] in R1.
    apply run_ret_inv in R1 as (-> & ->).
    destruct n as [|n]; [discriminate|]. cbn [loop] in R. apply run_bind_inv in R as (x & st5 & R1 & R).
    apply (run_get_inv _ _ _ _ _ P4) in R1 as (st6 & _ & P6 & R1). cbv beta iota in R1. unfold of_type in M. rewrite M in R1.
    apply run_ret_inv in R1 as (-> & ->).
    destruct n as [|n]; [discriminate|]. cbn [loop] in R. apply run_bind_inv in R as (x & st7 & R1 & R).
    apply (run_get_inv _ _ _ _ _ P6) in R1 as (st8 & _ & P8 & R1). cbv beta iota in R1. cbn [word tk_type tk_text app] in R1.
    apply run_ret_inv in R1 as (-> & ->).
    destruct n as [|n]; [discriminate|]. cbn [loop] in R. apply run_bind_inv in R as (x & st9 & R1 & R).
    apply (run_get_inv _ _ _ _ _ P8) in R1 as (st10 & _ & P10 & R1). cbv beta iota in R1. unfold of_type in C. rewrite C in R1.
    cbn [length negb Nat.eqb] in R1. apply run_ret_inv in R1 as (-> & ->). apply run_ret_inv in R as (-> & ->).
    simpl. auto 10.
Qed.
Lemma type_position X n c st name l t r td st' : pending st = word name :: l -> type_head t l r -> In t option_kinds ->
  run (parse_type_directive X n c) st = Ok (td, st') ->
  exists o os r', opt_part X (type_allows t) r os r' /\ statement_end r' (pending st') /\ recorded os o
    /\ td_name td = name /\ td_annos td = o_annos o /\ made t o td.
Proof.
  intros P H I R. pose proof R as R0. unfold parse_type_directive in R0.
  apply run_bind_inv in R0 as (name' & st1 & R1 & R0). pose proof (identifier_inv _ _ _ R1) as E. rewrite P in E. injection E as <- E1.
  apply run_bind_inv in R0 as (te & st2 & R2 & _). symmetry in E1.
  destruct (elements_head _ _ _ _ _ _ _ _ H E1 R2) as (Et & P2 & _).
  destruct (te_directive X n c st name te st1 td st' R1 R) as (st3 & o & os & r' & R3 & K).
  { exists st2. rewrite Et. auto. }
  rewrite R2 in R3. injection R3 as <-. rewrite Et, P2 in K. exists o, os, r'. exact K.
Qed.

(** ** Fields *)
Lemma opt_text_sub X a b ts o : (forall x, In x a -> In x b) -> opt_text X a ts o -> opt_text X b ts o.
Proof.
  intros S H.
  assert (forall w k, names a w k -> names b w k) as N by (intros w k (N1 & N2); split; auto).
  inversion H; subst; constructor; auto. match goal with H : _ \/ _ |- _ => destruct H end; auto.
Qed.
Lemma opt_part_sub X a b l os r : (forall x, In x a -> In x b) -> opt_part X a l os r -> opt_part X b l os r.
Proof.
  intros S [l' H|o c ts os' r' O C H]; constructor; auto.
  induction H; [constructor|apply oi_comma; auto|apply oi_cons; auto]. eapply opt_text_sub; eassumption.
Qed.
Lemma field_allows_same t x : In x (field_acceptable t) <-> In x (field_allows t).
Proof.
  unfold field_acceptable, field_allows, type_allows, numeric_types.
  destruct (t =?s "String") eqn:E1; [apply seqb_eq in E1; subst t; simpl; tauto|].
  destruct (t =?s "UUID") eqn:E2; [apply seqb_eq in E2; subst t; simpl; tauto|].
  destruct (str_mem t ["Int8"; "Int16"; "Int32"; "Int64"; "Float32"; "Float64"; "Decimal"]); [simpl; tauto|].
  destruct (str_mem t ["Bytes"; "Array"; "Map"]); simpl; tauto.
Qed.
Lemma type_spec_inv X n c st l t r ts o c' st' : pending st = l -> type_head t l r ->
  run (parse_type_spec (type_spec_elements X n) c) st = Ok ((ts, o, c'), st') ->
  ts_type ts = t /\ o = no_options /\ pending st' = r /\ ts_fields ts = [] /\ ts_elements ts = [] /\ c' = merge_comment c "".
Proof.
  intros P H R. unfold parse_type_spec in R. apply run_bind_inv in R as (te & st1 & R1 & R).
  destruct (elements_head _ _ _ _ _ _ _ _ H P R1) as (Et & P1 & Eo & Ef & Ee & Ec).
  apply run_bind_inv in R as (ts' & st2 & R2 & R). apply run_ret_inv in R as (E & ->). injection E as -> -> ->.
  assert (st2 = st1 /\ ts_type ts' = te_type te /\ ts_fields ts' = [] /\ ts_elements ts' = []) as (-> & Ety & E1 & E2).
  { unfold type_spec_of in R2. rewrite Ef, Ee in R2. cbv zeta in R2.
    destruct ((te_type te =?s "Array") || (te_type te =?s "List")).
    - apply run_bind_inv in R2 as (i & st3 & R2 & R). apply run_ret_inv in R as (-> & ->). simpl. split; [|auto].
      unfold array_params in R2. destruct (opt_list (te_params te)) as [|? [|? ?]]; try discriminate;
      apply run_ret_inv in R2 as (_ & R2); exact R2.
    - destruct (te_type te =?s "Map").
      + apply run_bind_inv in R2 as ((k & i) & st3 & R2 & R). apply run_ret_inv in R as (-> & ->). simpl. split; [|auto].
        unfold map_params in R2. destruct (opt_list (te_params te)) as [|? [|? [|? ?]]]; try discriminate;
        apply run_ret_inv in R2 as (_ & R2); exact R2.
      + destruct (te_type te =?s "UnitValue").
        * apply run_bind_inv in R2 as ((k & i) & st3 & R2 & R). apply run_ret_inv in R as (-> & ->). simpl. split; [|auto].
          unfold unit_params in R2. destruct (opt_list (te_params te)) as [|? [|? [|? ?]]]; try discriminate;
          apply run_ret_inv in R2 as (_ & R2); exact R2.
        * destruct (opt_list (te_params te)); [|discriminate]. apply run_ret_inv in R2 as (-> & ->). simpl. auto. }
  rewrite Ec. repeat (split; [congruence|]). reflexivity.
Qed.
Lemma field_position X n st name l t r f st' : pending st = word name :: l -> type_head t l r ->
  run (parse_struct_field X n (type_spec_elements X n)) st = Ok (Some f, st') ->
  exists o os r', opt_part X (field_allows t) r os r' /\ recorded os o
    /\ fd_name f = name /\ ts_type (fd_spec f) = t /\ kept_in o (fd_spec f)
    /\ fd_required f = o_required o /\ fd_default f = o_default o /\ fd_annos f = o_annos o.
Proof.
  intros P H R. unfold parse_struct_field in R. apply run_bind_inv in R as (x & st1 & R1 & R).
  assert (x = Some "" /\ pending st1 = word name :: l) as (-> & P1).
  { destruct n as [|n]; [discriminate|]. cbn [loop] in R1. apply run_bind_inv in R1 as (y & st2 & R2 & R1).
    apply (run_get_inv _ _ _ _ _ P) in R2 as (st3 & F & P3 & R2). cbv beta iota in R2. cbn [word tk_type] in R2.
    apply (run_unget_inv _ _ _ _ F) in R2 as (st4 & P4 & R2). apply run_ret_inv in R2 as (-> & ->).
    apply run_ret_inv in R1 as (-> & ->). rewrite P4, P3. auto. }
  apply run_bind_inv in R as (name' & st2 & R2 & R). apply identifier_inv in R2. rewrite P1 in R2. injection R2 as <- E2.
  apply run_bind_inv in R as (((ts & fo) & fc) & st3 & R3 & R). symmetry in E2.
  destruct (type_spec_inv _ _ _ _ _ _ _ _ _ _ _ E2 H R3) as (Et & -> & P3 & _ & _ & _).
  apply run_bind_inv in R as (o & st4 & R4 & R). apply options_inv in R4 as (os & O & K).
  apply run_bind_inv in R as ((c1 & b) & st5 & _ & R). apply run_ret_inv in R as (E & ->). injection E as ->.
  exists o, os, (pending st4). rewrite P3, Et in O.
  split; [eapply opt_part_sub; [|exact O]; intros x; apply field_allows_same|].
  split; [exact K|]. split; [reflexivity|]. split; [exact Et|]. split; [apply kept_with|]. simpl.
  split; [reflexivity|]. split; reflexivity.
Qed.

(** ** Enum elements, examples *)
Lemma element_position X n st s l e st' : pending st = word s :: l ->
  run (parse_enum_element X n) st = Ok (Some e, st') ->
  exists o os r', opt_part X [] l os r' /\ recorded os o /\ ee_symbol e = s /\ ee_annos e = o_annos o.
Proof.
  intros P R. unfold parse_enum_element in R. apply run_bind_inv in R as (x & st1 & R1 & R).
  assert (x = Some (s, "") /\ pending st1 = l) as (-> & P1).
  { destruct n as [|n]; [discriminate|]. cbn [loop] in R1. apply run_bind_inv in R1 as (y & st2 & R2 & R1).
    apply (run_get_inv _ _ _ _ _ P) in R2 as (st3 & F & P3 & R2). cbv beta iota in R2. cbn [word tk_type assert_identifier] in R2.
    change (is_type SYMBOL (word s)) with true in R2. cbv iota in R2. cbn [bind tk_text word] in R2.
    apply run_ret_inv in R2 as (-> & ->). apply run_ret_inv in R1 as (-> & ->). auto. }
  apply run_bind_inv in R as (o & st4 & R4 & R). apply options_inv in R4 as (os & O & K).
  apply run_bind_inv in R as (c1 & st5 & _ & R). apply run_ret_inv in R as (E & ->). injection E as ->.
  exists o, os, (pending st4). rewrite P1 in O. auto.
Qed.
Lemma compound_one n st s l x st' : pending st = word s :: l -> (forall t r, l = t :: r -> ~ of_type DOT t) ->
  run (expect_compound n) st = Ok (x, st') -> x = s /\ pending st' = l.
Proof.
  intros P D R. destruct n as [|n]; [discriminate|]. cbn [expect_compound] in R.
  apply run_bind_inv in R as (s' & st1 & R1 & R). apply identifier_inv in R1. rewrite P in R1. injection R1 as <- E.
  symmetry in E. destruct l as [|t l].
  - apply run_get_eof in R as (st2 & P2 & R); [|exact E]. apply run_ret_inv in R as (-> & ->). auto.
  - apply (run_get_inv _ _ _ _ _ E) in R as (st2 & F & P2 & R). cbv beta iota in R.
    destruct (is_type DOT t) eqn:Q; [apply is_type_eq in Q; destruct (D t l eq_refl Q)|].
    apply (run_unget_inv _ _ _ _ F) in R as (st3 & P3 & R). apply run_ret_inv in R as (-> & ->). rewrite P3, P2. auto.
Qed.
Lemma example_position X n c st s l e st' : pending st = word s :: l -> (forall t r, l = t :: r -> ~ of_type DOT t) ->
  run (parse_example_directive X n c) st = Ok (e, st') ->
  exists o os r' ts, opt_part X example_allows l os r' /\ recorded os o /\ ex_target e = s /\ ex_name e = o_name o
    /\ r' = ts ++ pending st' /\ literal X ts (ex_example e).
Proof.
  intros P D R. unfold parse_example_directive in R. apply run_bind_inv in R as (s' & st1 & R1 & R).
  destruct (compound_one _ _ _ _ _ _ P D R1) as (-> & P1).
  apply run_bind_inv in R as (o & st4 & R4 & R). apply options_inv in R4 as (os & O & K).
  apply run_bind_inv in R as (v & st5 & R5 & R). apply run_ret_inv in R as (-> & ->).
  apply (acts_run _ _ _ _ _ (a_literal_value X n)) in R5. rewrite P1 in O.
  destruct (pending st4) as [|t l4] eqn:P4; [discriminate|]. simpl in R5. apply literal_sound in R5 as (ts & -> & L).
  exists o, os, (t :: ts ++ pending st5), (t :: ts). auto 10.
Qed.

(** ** Http *)
Lemma param_position X n path name c st t r p st' : type_head t (pending st) r ->
  run (parse_http_param X n path name c) st = Ok (p, st') ->
  exists o os r', opt_part X param_allows r os r' /\ recorded os o
    /\ fd_name (ps_field p) = name /\ ts_type (fd_spec (ps_field p)) = t /\ ps_header p = o_header o
    /\ fd_default (ps_field p) = o_default o /\ fd_annos (ps_field p) = o_annos o.
Proof.
  intros H R. unfold parse_http_param in R. apply run_bind_inv in R as (((ts & fo) & fc) & st3 & R3 & R).
  destruct (type_spec_inv _ _ _ _ _ _ _ _ _ _ _ eq_refl H R3) as (Et & -> & P3 & _ & _ & _).
  apply run_bind_inv in R as (o & st4 & R4 & R). apply options_inv in R4 as (os & O & K).
  apply run_bind_inv in R as ((c1 & b) & st5 & _ & R). apply run_ret_inv in R as (-> & ->).
  exists o, os, (pending st4). rewrite P3 in O. split; [exact O|]. split; [exact K|].
  assert (forall src f, ps_field (source_param src f) = f) as SF by (intros [] ?; reflexivity).
  rewrite SF. simpl. split; [reflexivity|]. split; [exact Et|]. split; [|split; reflexivity].
  unfold parameter_source. destruct (o_header o =?s "") eqn:E; simpl; [|reflexivity]. apply seqb_eq in E. rewrite E.
  destruct (match cut "?" path with Some (a, b0) => (a, b0) | None => (path, "") end) as [q1 q2].
  match goal with |- context [if ?b then FromPath else _] => destruct b end; [reflexivity|].
  match goal with |- context [match ?b with Some k => FromQuery k | None => FromBody end] => destruct b end; reflexivity.
Qed.
Lemma exception_position X n h c st l ty h' st' :
  (exists raw, pending st = mkTok NUMBER raw :: word ty :: l) \/ pending st = word ty :: l ->
  run (parse_http_exception X n h c) st = Ok (h', st') ->
  exists o os r' x, opt_part X [] l os r' /\ statement_end r' (pending st') /\ recorded os o
    /\ h_exceptions h' = h_exceptions h ++ [x] /\ xc_type x = ty /\ xc_annos x = o_annos o.
Proof.
  intros P R. unfold parse_http_exception in R. apply run_bind_inv in R as (z & st1 & R1 & R).
  assert (pending st1 = word ty :: l) as P1.
  { destruct P as [(raw & P)|P].
    - apply (run_get_inv _ _ _ _ _ P) in R1 as (st2 & F & P2 & R1). cbv beta iota in R1.
      change (is_type NUMBER (mkTok NUMBER raw)) with true in R1. cbv iota in R1.
      apply (run_unget_inv _ _ _ _ F) in R1 as (st3 & P3 & R1).
      apply (acts_run _ _ _ _ _ (a_int 32)) in R1. apply f_one_some in R1 as (t & E & _).
      rewrite P3, P2 in E. injection E as _ E. auto.
    - apply (run_get_inv _ _ _ _ _ P) in R1 as (st2 & F & P2 & R1). cbv beta iota in R1.
      change (is_type NUMBER (word ty)) with false in R1. cbv iota in R1.
      apply (run_unget_inv _ _ _ _ F) in R1 as (st3 & P3 & R1). apply run_ret_inv in R1 as (_ & ->). rewrite P3, P2. reflexivity. }
  apply run_bind_inv in R as (ty' & st2 & R2 & R). apply identifier_inv in R2. rewrite P1 in R2. injection R2 as <- E2.
  destruct (str_mem ty (map xc_type (h_exceptions h))); [discriminate|].
  apply run_bind_inv in R as (o & st4 & R4 & R). apply options_inv in R4 as (os & O & K).
  apply run_bind_inv in R as (c1 & st5 & R5 & R). apply eos_inv in R5. apply run_ret_inv in R as (-> & ->).
  exists o, os, (pending st4), (mkExc ty z c1 (o_annos o)). rewrite <- E2 in O. simpl. auto 10.
Qed.
Lemma expected_position X n h c st l raw h' st' : pending st = mkTok NUMBER raw :: l ->
  run (parse_http_expected X n h c) st = Ok (h', st') ->
  exists o os r' x, opt_part X [] l os r' /\ recorded os o /\ h_expected h' = Some x /\ xp_annos x = o_annos o.
Proof.
  intros P R. unfold parse_http_expected in R. destruct (h_expected h); [discriminate|].
  apply run_bind_inv in R as (z & st1 & R1 & R).
  assert (pending st1 = l) as P1.
  { apply (acts_run _ _ _ _ _ (a_int 32)) in R1. apply f_one_some in R1 as (t & E & _). rewrite P in E. injection E as _ E. auto. }
  apply run_bind_inv in R as (o & st4 & R4 & R). apply options_inv in R4 as (os & O & K).
  apply run_bind_inv in R as ((outs & c1) & st5 & _ & R). apply run_bind_inv in R as (c2 & st6 & _ & R).
  apply run_ret_inv in R as (-> & ->). eexists o, os, (pending st4), _. rewrite P1 in O.
  split; [exact O|]. split; [exact K|]. split; [reflexivity|reflexivity].
Qed.
Lemma run_loop_inv {S A} (I : S -> Prop) (Q : A -> Prop) (body : S -> prog (S + A)) :
  (forall s st r st', I s -> run (body s) st = Ok (r, st') -> match r with inl s' => I s' | inr a => Q a end) ->
  forall n s st a st', I s -> run (loop n body s) st = Ok (a, st') -> Q a.
Proof.
  intros H. induction n as [|n IH]; intros s st a st' Hs R; [discriminate|]. cbn [loop] in R.
  apply run_bind_inv in R as (r & st1 & R1 & R). pose proof (H _ _ _ _ Hs R1) as K.
  destruct r as [s'|b]; [eapply IH; eauto|]. apply run_ret_inv in R as (-> & _). exact K.
Qed.
Definition head_of (h : httpdef) := (h_name h, h_resource h, h_annos h, h_method h, h_path h).
Lemma http_spec_head X n h c st h' st' : run (parse_http_spec X n h c) st = Ok (h', st') -> head_of h' = head_of h.
Proof.
  unfold parse_http_spec. intros R. apply run_bind_inv in R as (name & st1 & _ & R).
  destruct (name =?s "expect").
  - unfold parse_http_expected in R. destruct (h_expected h); [discriminate|].
    do 4 (apply run_bind_inv in R as (? & ? & _ & R); try match type of R with run (let '(_, _) := ?x in _) _ = _ => destruct x end).
    apply run_ret_inv in R as (-> & ->). reflexivity.
  - destruct (name =?s "except").
    + unfold parse_http_exception in R. apply run_bind_inv in R as (? & ? & _ & R). apply run_bind_inv in R as (ty & ? & _ & R).
      destruct (str_mem ty (map xc_type (h_exceptions h))); [discriminate|].
      do 2 (apply run_bind_inv in R as (? & ? & _ & R)). apply run_ret_inv in R as (-> & ->). reflexivity.
    + apply run_bind_inv in R as (? & ? & _ & R). apply run_ret_inv in R as (-> & ->). reflexivity.
Qed.
Lemma action_position X n c st m path l h st' : pending st = word m :: mkTok STRING path :: l ->
  run (parse_http_directive X n c) st = Ok (h, st') ->
  exists o os b r', opt_part X action_allows l os (b :: r') /\ of_type OPEN_BRACE b /\ recorded os o
    /\ h_path h = path /\ h_annos h = o_annos o
    /\ (o_action o <> "" -> h_name h = o_action o) /\ (o_resource o <> "" -> h_resource h = o_resource o).
Proof.
  intros P R. unfold parse_http_directive in R. apply run_bind_inv in R as (sym & st1 & R1 & R).
  apply identifier_inv in R1. rewrite P in R1. injection R1 as <- E1. symmetry in E1. cbv zeta in R.
  destruct (negb (str_mem (to_upper m) http_methods)); [discriminate|].
  apply run_bind_inv in R as (path' & st2 & R2 & R). apply string_inv in R2. rewrite E1 in R2. injection R2 as <- E2. symmetry in E2.
  apply run_bind_inv in R as (o & st4 & R4 & R). apply options_inv in R4 as (os & O & K). rewrite E2 in O.
  destruct (pending st4) as [|b r'] eqn:P4.
  { apply run_get_eof in R as (st5 & _ & R); [discriminate|exact P4]. }
  apply (run_get_inv _ _ _ _ _ P4) in R as (st5 & F & P5 & R). cbv beta iota in R.
  destruct (is_type OPEN_BRACE b) eqn:B; [|discriminate]. apply is_type_eq in B.
  apply run_bind_inv in R as (c1 & st6 & _ & R). apply run_bind_inv in R as (h1 & st7 & RL & R).
  apply run_bind_inv in R as ((c2 & ok) & st8 & _ & R). apply run_ret_inv in R as (-> & ->).
  exists o, os, b, r'. split; [exact O|]. split; [exact B|]. split; [exact K|].
  assert (head_of h1 = (o_action o, o_resource o, o_annos o, to_upper m, path)) as Hh.
  { eapply (run_loop_inv (fun h => head_of h = (o_action o, o_resource o, o_annos o, to_upper m, path))
      (fun h => head_of h = (o_action o, o_resource o, o_annos o, to_upper m, path))); [| |exact RL]; [|reflexivity].
    intros s stx rx stx' Hs Rx. apply run_bind_inv in Rx as ((dn & c3) & sty & _ & Rx). destruct dn.
    - apply run_ret_inv in Rx as (-> & _). exact Hs.
    - apply run_bind_inv in Rx as (h' & stz & Rz & Rx). apply run_ret_inv in Rx as (-> & _).
      apply http_spec_head in Rz. rewrite Rz. exact Hs. }
  unfold head_of in Hh. injection Hh as Hn Hr Ha Hm Hp.
  unfold ensure_required_params, ensure_action_name, set_http_comment. simpl. rewrite Hn, Hr.
  destruct (o_action o =?s "") eqn:E; simpl; rewrite ?Hn, ?Hr.
  - apply seqb_eq in E. split; [exact Hp|]. split; [exact Ha|]. split; [intros Q; destruct (Q E)|].
    intros Q. destruct (o_resource o =?s "") eqn:E3; [apply seqb_eq in E3; contradiction|reflexivity].
  - split; [exact Hp|]. split; [exact Ha|]. auto.
Qed.

(** ** Operations *)
Lemma try_run {A} (p : prog A) : forall st x st', run (try p) st = Ok (x, st') ->
  match x with Some a => run p st = Ok (a, st') | None => True end.
Proof.
  induction p as [a|e| | |k IH|p IH]; intros st x st' R; simpl in R; try discriminate.
  - injection R as <- <-. reflexivity.
  - injection R as <- <-. exact I.
  - destruct (get_token st) as [t st1] eqn:G. apply IH in R. destruct x; [|exact I]. simpl. rewrite G. exact R.
  - apply IH in R. destruct x; [|exact I]. exact R.
Qed.
Lemma operation_position X n c st name l op st' : pending st = word name :: l ->
  run (parse_operation_directive X n c) st = Ok (op, st') ->
  exists o os r', opt_part X ["http"] l os r' /\ recorded os o /\ op_name op = name /\ op_annos op = o_annos o
    /\ forall w, In w os -> exists n v, w = OAnno n v.
Proof.
  intros P R. unfold parse_operation_directive in R. apply run_bind_inv in R as (name' & st1 & R1 & R).
  apply identifier_inv in R1. rewrite P in R1. injection R1 as <- E1. symmetry in E1.
  apply run_bind_inv in R as (oo & st2 & R2 & R). apply try_run in R2.
  apply run_bind_inv in R as (u & st3 & _ & R). apply run_bind_inv in R as (((ins & outs) & excs) & st4 & _ & R).
  destruct oo as [o|]; [|discriminate]. apply run_ret_inv in R as (-> & ->).
  apply options_inv in R2 as (os & O & K). rewrite E1 in O. exists o, os, (pending st2).
  split; [exact O|]. split; [exact K|]. split; [reflexivity|]. split; [reflexivity|].
  assert (forall ts w, opt_text X ["http"] ts w -> exists n v, w = OAnno n v) as T.
  { intros ts w T. inversion T; subst; eauto;
      repeat match goal with H : _ \/ _ |- _ => destruct H | H : names _ _ _ |- _ => destruct H as (_ & [?|[]]) end; discriminate. }
  inversion O as [|b c0 ts os' r0 B C Hi]; subst; [intros w []|].
  clear - T Hi. induction Hi as [|t ts l C H IH|a wo ts l Ta H IH]; intros w Hw; [destruct Hw|auto|].
  destruct Hw as [<- |Hw]; [eapply T, Ta|auto].
Qed.

(** ** Definitions with braces, and unions *)
Lemma recorded_once os : NoDup (keys (o_annos (fold_left (fun o w => record w o) os no_options))).
Proof.
  induction os as [|w os IH] using rev_ind; [constructor|]. rewrite fold_left_app. simpl.
  destruct w; try exact IH. simpl. apply assoc_set_NoDup. exact IH.
Qed.
Lemma options_once X n acc st o st' : run (parse_options X n acc) st = Ok (o, st') ->
  exists os, opt_part X acc (pending st) os (pending st') /\ recorded os o /\ NoDup (keys (o_annos o)).
Proof.
  intros R. apply (acts_run _ _ _ _ _ (a_options X n acc)) in R. apply options_sound in R as (os & H & ->).
  exists os. split; [exact H|]. split; [apply recorded_all|apply recorded_once].
Qed.
Lemma nothing_recorded : recorded [] no_options.
Proof. exact (recorded_all []). Qed.
Lemma elements_braced X n st k l te st' : pending st = word k :: l -> In k ["Struct"; "Enum"; "Union"] ->
  (forall x r, l = x :: r -> ~ of_type OPEN_ANGLE x) ->
  run (type_spec_elements X n) st = Ok (te, st') ->
  te_type te = k /\ te_params te = None /\ exists os r, opt_part X [] l os r /\ recorded os (te_options te)
    /\ NoDup (keys (o_annos (te_options te)))
    /\ (te_fields te <> None \/ te_elements te <> [] -> exists b r', r = b :: r' /\ of_type OPEN_BRACE b).
Proof.
  intros P I A R. destruct n as [|n]; [discriminate|]. cbn [type_spec_elements] in R.
  apply run_bind_inv in R as (name & st1 & R1 & R). apply identifier_inv in R1. rewrite P in R1. injection R1 as <- E1.
  destruct l as [|x l].
  - apply run_get_eof in R as (st2 & P2 & R); [|symmetry; exact E1]. apply run_ret_inv in R as (-> & ->).
    split; [reflexivity|]. split; [reflexivity|]. exists [], []. split; [apply op_none; discriminate|]. split; [exact nothing_recorded|]. split; [constructor|].
    simpl. intuition congruence.
  - apply (run_get_inv _ _ x l) in R as (st2 & F & P2 & R); [|symmetry; exact E1]. cbv beta iota in R.
    destruct (is_type OPEN_ANGLE x) eqn:OA; [apply is_type_eq in OA; destruct (A x l eq_refl OA)|].
    destruct (str_mem k ["Struct"; "Enum"; "Union"]) eqn:M; [|apply str_mem_In in I; congruence].
    apply run_bind_inv in R as ((tok & o) & st3 & R1 & R).
    assert (exists os, opt_part X [] (x :: l) os (tok :: pending st3) /\ recorded os o /\ NoDup (keys (o_annos o))) as (os & H & K & D).
    { destruct (is_type OPEN_BRACE x) eqn:B.
      - apply run_ret_inv in R1 as (E & ->). injection E as -> ->. exists []. rewrite P2. split; [|split; [exact nothing_recorded|constructor]].
        apply op_none. intros t r E. injection E as <- <-. apply is_type_eq in B. unfold of_type in *. congruence.
      - apply (run_unget_inv _ _ x) in R1 as (st4 & P4 & R1); [|exact F].
        apply run_bind_inv in R1 as (o' & st5 & R1 & R2). apply options_once in R1 as (os & H & K & D).
        rewrite P4, P2 in H. destruct (pending st5) as [|t r] eqn:P5.
        + apply run_get_eof in R2 as (st6 & _ & R2); [discriminate|exact P5].
        + apply (run_get_inv _ _ _ _ _ P5) in R2 as (st6 & _ & P6 & R2). apply run_ret_inv in R2 as (E & ->).
          injection E as -> ->. rewrite P6. exists os. auto. }
    destruct (is_type OPEN_BRACE tok) eqn:B.
    + apply is_type_eq in B.
      apply run_bind_inv in R as (c & st4 & R2 & R). apply run_bind_inv in R as (u & st5 & R3 & R).
      assert (te_type te = k /\ te_params te = None /\ te_options te = o) as (Et & Ep & Eo).
      { destruct (k =?s "Enum").
        - apply run_bind_inv in R as (els & st6 & R4 & R). apply run_bind_inv in R as ((c' & b') & st7 & R5 & R).
          simpl in R. injection R as <- _. auto.
        - apply run_bind_inv in R as (els & st6 & R4 & R). apply run_bind_inv in R as ((c' & b') & st7 & R5 & R).
          simpl in R. injection R as <- _. auto. }
      split; [exact Et|]. split; [exact Ep|]. exists os, (tok :: pending st3). rewrite Eo.
      split; [exact H|]. split; [exact K|]. split; [exact D|]. eauto.
    + simpl in R. injection R as <- _. split; [reflexivity|]. split; [reflexivity|].
      exists os, (tok :: pending st3). split; [exact H|]. split; [exact K|]. split; [exact D|]. simpl. intuition congruence.
Qed.

Lemma braced_position X n c st name k l td st' : pending st = word name :: word k :: l -> In k ["Struct"; "Enum"] ->
  (forall x r, l = x :: r -> ~ of_type OPEN_ANGLE x) ->
  run (parse_type_directive X n c) st = Ok (td, st') ->
  exists o os r, opt_part X [] l os r /\ recorded os o /\ td_name td = name /\ td_annos td = o_annos o
    /\ ts_type (td_spec td) = k.
Proof.
  intros P I A R. unfold parse_type_directive in R.
  apply run_bind_inv in R as (name' & st1 & R1 & R). apply identifier_inv in R1. rewrite P in R1. injection R1 as <- E1.
  apply run_bind_inv in R as (te & st2 & R2 & R). symmetry in E1.
  assert (In k ["Struct"; "Enum"; "Union"]) as I3 by (simpl in *; tauto).
  destruct (elements_braced X n st1 k l te st2 E1 I3 A R2) as (Et & _ & os & r & H & K & _).
  cbv zeta in R. rewrite Et in R. exists (te_options te), os, r.
  destruct I as [<- |[<- |[]]]; cbn [str_mem existsb String.eqb Ascii.eqb Bool.eqb orb numeric_types] in R.
  - apply run_bind_inv in R as (o & st3 & _ & R). apply run_ret_inv in R as (-> & _). simpl. auto.
  - apply run_ret_inv in R as (-> & _). simpl. auto.
Qed.

Lemma angle_inv (f : nat) : forall ps st te st',
  run (loop f (fun ps => Get (fun t => match t with
      | None => fail_eof
      | Some tok =>
          match tk_type tok with
          | COMMA => Ret (inl ps)
          | CLOSE_ANGLE => Ret (inr (mkTE "Union" (match ps with [] => None | _ => Some ps end) None [] no_options ""))
          | SYMBOL => Ret (inl (ps ++ [tk_text tok]))
          | _ => fail_syntax
          end
      end)) ps) st = Ok (te, st') ->
  exists ts ps' c, pending st = ts ++ c :: pending st' /\ variants ts ps' /\ of_type CLOSE_ANGLE c
    /\ te_type te = "Union" /\ te_params te = some_list (ps ++ ps') /\ te_fields te = None /\ te_comment te = "".
Proof.
  induction f as [|f IH]; intros ps st te st' R; [discriminate|]. cbn [loop] in R.
  apply run_bind_inv in R as (x & st1 & R1 & R).
  destruct (pending st) as [|t r] eqn:P.
  { apply run_get_eof in R1 as (st2 & _ & R1); [discriminate|exact P]. }
  apply (run_get_inv _ _ _ _ _ P) in R1 as (st2 & _ & P2 & R1). cbv beta iota in R1.
  destruct (tk_type t) eqn:T; try discriminate; apply run_ret_inv in R1 as (-> & ->).
  - apply IH in R as (ts & ps' & c & E & V & C & K1 & K2 & K3). rewrite <- P2, E.
    exists (t :: ts), (tk_text t :: ps'), c. split; [reflexivity|]. split.
    { destruct t as [ty tx]. simpl in T. subst ty. apply vs_name. exact V. }
    split; [exact C|]. split; [exact K1|]. rewrite K2, <- app_assoc. auto.
  - apply IH in R as (ts & ps' & c & E & V & C & K1 & K2 & K3). rewrite <- P2, E.
    exists (t :: ts), ps', c. split; [reflexivity|]. split; [apply vs_comma; [exact T|exact V]|]. auto.
  - apply run_ret_inv in R as (-> & ->). rewrite P2. exists [], [], t. rewrite app_nil_r. simpl.
    split; [reflexivity|]. split; [constructor|]. split; [exact T|]. destruct ps; auto.
Qed.

Lemma union_position X n c st name a l td st' : pending st = word name :: word "Union" :: a :: l -> of_type OPEN_ANGLE a ->
  run (parse_type_directive X n c) st = Ok (td, st') ->
  exists o os ts vs e r r', l = ts ++ e :: r /\ variants ts vs /\ of_type CLOSE_ANGLE e
    /\ opt_part X [] r os r' /\ statement_end r' (pending st') /\ recorded os o
    /\ td_name td = name /\ td_annos td = o_annos o /\ ts_type (td_spec td) = "Union"
    /\ map uv_name (ts_variants (td_spec td)) = vs /\ vs <> [].
Proof.
  intros P A R. unfold parse_type_directive in R.
  apply run_bind_inv in R as (name' & st1 & R1 & R). apply identifier_inv in R1. rewrite P in R1. injection R1 as <- E1.
  apply run_bind_inv in R as (te & st2 & R2 & R). symmetry in E1.
  destruct n as [|n]; [discriminate|]. cbn [type_spec_elements] in R2.
  apply run_bind_inv in R2 as (k & st3 & R1 & R2). apply identifier_inv in R1. rewrite E1 in R1. injection R1 as <- E3.
  symmetry in E3. apply (run_get_inv _ _ _ _ _ E3) in R2 as (st4 & _ & P4 & R2). cbv beta iota in R2.
  apply is_type_eq in A. rewrite A in R2. unfold parse_angle in R2. cbv zeta in R2.
  cbn [String.eqb Ascii.eqb Bool.eqb orb] in R2. apply angle_inv in R2 as (ts & ps & e & E & V & C & Kt & Kp & Kf & Kc).
  cbv zeta in R. rewrite Kt in R. cbn [str_mem existsb String.eqb Ascii.eqb Bool.eqb orb numeric_types] in R.
  unfold type_options in R. apply run_bind_inv in R as ((ts1 & an) & st5 & R1 & R).
  apply run_bind_inv in R1 as (o & st6 & R1 & R2). apply run_ret_inv in R2 as (Eq & ->). injection Eq as -> ->.
  apply options_inv in R1 as (os & H & K). apply run_bind_inv in R as (vs & st7 & R1 & R).
  apply run_bind_inv in R as (c' & st8 & R2 & R). apply run_ret_inv in R as (-> & ->).
  rewrite Kp, Kf in R1. destruct ps as [|p ps]; [discriminate|]. cbn [some_list app] in R1.
  apply run_ret_inv in R1 as (-> & ->). apply eos_inv in R2.
  exists o, os, ts, (p :: ps), e, (pending st2), (pending st6). rewrite <- P4.
  do 8 (split; [assumption || reflexivity|]). split; [reflexivity|]. split; [|discriminate].
  simpl. rewrite map_map. simpl. now rewrite map_id.
Qed.

Lemma merged_assoc n : forall b a, NoDup (keys b) ->
  assoc n (merge_annos a b) = match assoc n b with Some v => Some v | None => assoc n a end.
Proof.
  unfold merge_annos. induction b as [|(k, v) b IH]; intros a D; [reflexivity|]. cbn [fold_left fst snd].
  inversion D as [|? ? N D']; subst. rewrite (IH _ D'). cbn [assoc]. destruct (n =?s k) eqn:E.
  - apply seqb_eq in E. subst k. rewrite assoc_set_same. destruct (assoc n b) eqn:B; [|reflexivity].
    exfalso. apply N. apply assoc_In in B. apply in_map_iff. exists (n, s). auto.
  - destruct (assoc n b); [reflexivity|]. apply assoc_set_other. intros ->. rewrite seqb_refl in E. discriminate.
Qed.
(** a field whose type is defined where it stands *)
Lemma inline_position X n st name k l f st' : pending st = word name :: word k :: l -> In k ["Struct"; "Enum"] ->
  (forall x r, l = x :: r -> ~ of_type OPEN_ANGLE x) ->
  run (parse_struct_field X n (type_spec_elements X n)) st = Ok (Some f, st') ->
  exists o1 os1 r1 st1 te st2 o2 os2 r2, opt_part X [] l os1 r1 /\ recorded os1 o1
    /\ pending st1 = word k :: l /\ run (type_spec_elements X n) st1 = Ok (te, st2)
    /\ opt_part X (field_allows k) (pending st2) os2 r2 /\ recorded os2 o2
    /\ fd_name f = name /\ ts_type (fd_spec f) = k /\ kept_in o2 (fd_spec f)
    /\ fd_required f = o_required o2 /\ fd_default f = o_default o2
    /\ (forall x, assoc x (fd_annos f) = match assoc x (o_annos o1) with Some v => Some v | None => assoc x (o_annos o2) end).
Proof.
  intros P I A R. unfold parse_struct_field in R. apply run_bind_inv in R as (x & st1 & R1 & R).
  assert (x = Some "" /\ pending st1 = word name :: word k :: l) as (-> & P1).
  { destruct n as [|n]; [discriminate|]. cbn [loop] in R1. apply run_bind_inv in R1 as (y & st2 & R2 & R1).
    apply (run_get_inv _ _ _ _ _ P) in R2 as (st3 & F & P3 & R2). cbv beta iota in R2. cbn [word tk_type] in R2.
    apply (run_unget_inv _ _ _ _ F) in R2 as (st4 & P4 & R2). apply run_ret_inv in R2 as (-> & ->).
    apply run_ret_inv in R1 as (-> & ->). rewrite P4, P3. auto. }
  apply run_bind_inv in R as (name' & st2 & R2 & R). apply identifier_inv in R2. rewrite P1 in R2. injection R2 as <- E2.
  apply run_bind_inv in R as (((ts & fo) & fc) & st3 & R3 & R). symmetry in E2.
  unfold parse_type_spec in R3. apply run_bind_inv in R3 as (te & st4 & R3 & R4).
  assert (In k ["Struct"; "Enum"; "Union"]) as I3 by (simpl in *; tauto).
  destruct (elements_braced X n st2 k l te st4 E2 I3 A R3) as (Et & Ep & os1 & r1 & H1 & K1 & D & _).
  apply run_bind_inv in R4 as (ts' & st5 & R4 & R5). apply run_ret_inv in R5 as (E & ->). injection E as -> -> ->.
  assert (ts_type ts' = k /\ st5 = st4) as (Ety & ->).
  { unfold type_spec_of in R4. rewrite Et, Ep in R4. cbv zeta in R4. cbn [opt_list] in R4.
    destruct I as [<- |[<- |[]]]; cbn [String.eqb Ascii.eqb Bool.eqb orb] in R4; apply run_ret_inv in R4 as (-> & ->); auto. }
  apply run_bind_inv in R as (o & st6 & R6 & R). apply options_inv in R6 as (os & O & K).
  apply run_bind_inv in R as ((c1 & b) & st7 & _ & R). apply run_ret_inv in R as (E & ->). injection E as ->.
  rewrite Ety in O.
  exists (te_options te), os1, r1, st2, te, st4, o, os, (pending st6).
  split; [exact H1|]. split; [exact K1|]. split; [exact E2|]. split; [exact R3|].
  split; [eapply opt_part_sub; [|exact O]; intros x; apply field_allows_same|].
  split; [exact K|]. split; [reflexivity|]. split; [exact Ety|]. split; [apply kept_with|]. simpl.
  split; [reflexivity|]. split; [reflexivity|]. intros x. apply merged_assoc, D.
Qed.
