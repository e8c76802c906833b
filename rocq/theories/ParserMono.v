(** The fuel of the parser's loops only matters until it is enough. *)
From Verif Require Import GoStr Outcome Value Schema Scalars Model Misc ParserValidate Scan ScanFacts Parser.

Create HintDb mono.
Ltac mono :=
  repeat first
  [ solve [constructor]
  | assumption
  | solve [auto with mono]
  | apply le_bind; [|intro]
  | apply le_loop; [lia|intro]
  | apply le_get; intro
  | apply le_unget
  | apply le_try
  | apply le_refl
  | match goal with |- le_prog (match ?x with _ => _ end) _ => destruct x end ].

Lemma expect_compound_le n : forall n', n <= n' -> le_prog (expect_compound n) (expect_compound n').
Proof.
  induction n as [|n IH]; intros n' H; [constructor|]. destruct n'; [lia|].
  simpl. assert (n <= n') by lia. mono.
Qed.
Lemma end_of_statement'_le n n' c : n <= n' -> le_prog (end_of_statement' n c) (end_of_statement' n' c).
Proof. intros H. unfold end_of_statement'. mono. Qed.
#[export] Hint Resolve expect_compound_le end_of_statement'_le : mono.
Lemma end_of_statement_le n n' c : n <= n' -> le_prog (end_of_statement n c) (end_of_statement n' c).
Proof. intros H. unfold end_of_statement. mono. Qed.
Lemma is_block_done_le n n' c : n <= n' -> le_prog (is_block_done n c) (is_block_done n' c).
Proof. intros H. unfold is_block_done. mono. Qed.
Lemma expect_equals_string_array_le n n' : n <= n' ->
  le_prog (expect_equals_string_array n) (expect_equals_string_array n').
Proof. intros H. unfold expect_equals_string_array. mono. Qed.
#[export] Hint Resolve end_of_statement_le is_block_done_le expect_equals_string_array_le : mono.

Section M.
Variable X : ext.
Lemma parse_literal_le n : forall n' t, n <= n' -> le_prog (parse_literal X n t) (parse_literal X n' t).
Proof.
  induction n as [|n IH]; intros n' t H; [constructor|]. destruct n'; [lia|].
  simpl. assert (n <= n') by lia. mono.
Qed.
Hint Resolve parse_literal_le : mono.
Lemma parse_literal_value_le n n' : n <= n' -> le_prog (parse_literal_value X n) (parse_literal_value X n').
Proof. intros H. unfold parse_literal_value. mono. Qed.
Hint Resolve parse_literal_value_le : mono.
Lemma parse_option_le n n' m o : n <= n' -> le_prog (parse_option X n m o) (parse_option X n' m o).
Proof. intros H. unfold parse_option, parse_equals_literal. mono. Qed.
Hint Resolve parse_option_le : mono.
Lemma parse_options_le n n' acc : n <= n' -> le_prog (parse_options X n acc) (parse_options X n' acc).
Proof. intros H. unfold parse_options. mono. Qed.
Hint Resolve parse_options_le : mono.
Lemma parse_enum_element_le n n' : n <= n' -> le_prog (parse_enum_element X n) (parse_enum_element X n').
Proof. intros H. unfold parse_enum_element. mono. Qed.
Lemma parse_type_spec_le p p' c : le_prog p p' -> le_prog (parse_type_spec p c) (parse_type_spec p' c).
Proof. intros H. unfold parse_type_spec. mono. Qed.
Hint Resolve parse_enum_element_le parse_type_spec_le : mono.
Lemma parse_struct_field_le n n' p p' : n <= n' -> le_prog p p' ->
  le_prog (parse_struct_field X n p) (parse_struct_field X n' p').
Proof. intros H Hp. unfold parse_struct_field. mono. Qed.
Lemma parse_angle_le n n' s : n <= n' -> le_prog (parse_angle n s) (parse_angle n' s).
Proof. intros H. unfold parse_angle. mono. Qed.
Lemma collect_le {A} n n' (p p' : prog (option A)) : n <= n' -> le_prog p p' ->
  le_prog (collect n p) (collect n' p').
Proof. intros H Hp. unfold collect. mono. Qed.
Hint Resolve parse_struct_field_le parse_angle_le collect_le : mono.
Lemma type_spec_elements_le n : forall n', n <= n' ->
  le_prog (type_spec_elements X n) (type_spec_elements X n').
Proof.
  induction n as [|n IH]; intros n' H; [constructor|]. destruct n'; [lia|].
  simpl. assert (n <= n') by lia. mono.
Qed.
Hint Resolve type_spec_elements_le : mono.
Lemma type_options_le n n' acc ts : n <= n' -> le_prog (type_options X n acc ts) (type_options X n' acc ts).
Proof. intros H. unfold type_options. mono. Qed.
Hint Resolve type_options_le : mono.
Lemma simple_def_le n n' acc a c ts : n <= n' -> le_prog (simple_def X n acc a c ts) (simple_def X n' acc a c ts).
Proof. intros H. unfold simple_def. mono. Qed.
Hint Resolve simple_def_le : mono.
Lemma parse_type_directive_le n n' c : n <= n' ->
  le_prog (parse_type_directive X n c) (parse_type_directive X n' c).
Proof. intros H. unfold parse_type_directive. mono. Qed.
Lemma parse_example_directive_le n n' c : n <= n' ->
  le_prog (parse_example_directive X n c) (parse_example_directive X n' c).
Proof. intros H. unfold parse_example_directive. mono. Qed.
Lemma parse_namespace_le n n' : n <= n' -> le_prog (parse_namespace n) (parse_namespace n').
Proof. intros H. unfold parse_namespace. mono. Qed.
Lemma op_section_le {A} n n' (p p' : token -> prog A) : n <= n' -> (forall t, le_prog (p t) (p' t)) ->
  le_prog (op_section n p) (op_section n' p').
Proof. intros H Hp. unfold op_section. mono. Qed.
Lemma op_input_le n n' t : n <= n' -> le_prog (op_input n t) (op_input n' t).
Proof. intros H. unfold op_input, op_symbol. mono. Qed.
Hint Resolve parse_type_directive_le parse_example_directive_le parse_namespace_le op_section_le op_input_le : mono.
Lemma parse_operation_directive_le n n' c : n <= n' ->
  le_prog (parse_operation_directive X n c) (parse_operation_directive X n' c).
Proof. intros H. unfold parse_operation_directive. mono. Qed.
Lemma parse_http_param_le n n' p s c : n <= n' -> le_prog (parse_http_param X n p s c) (parse_http_param X n' p s c).
Proof. intros H. unfold parse_http_param. mono. Qed.
Hint Resolve parse_operation_directive_le parse_http_param_le : mono.
Lemma parse_http_expected_le n n' h c : n <= n' ->
  le_prog (parse_http_expected X n h c) (parse_http_expected X n' h c).
Proof. intros H. unfold parse_http_expected. mono. Qed.
Lemma parse_http_exception_le n n' h c : n <= n' ->
  le_prog (parse_http_exception X n h c) (parse_http_exception X n' h c).
Proof. intros H. unfold parse_http_exception. mono. Qed.
Hint Resolve parse_http_expected_le parse_http_exception_le : mono.
Lemma parse_http_spec_le n n' h c : n <= n' -> le_prog (parse_http_spec X n h c) (parse_http_spec X n' h c).
Proof. intros H. unfold parse_http_spec. mono. Qed.
Hint Resolve parse_http_spec_le : mono.
Lemma parse_http_directive_le n n' c : n <= n' ->
  le_prog (parse_http_directive X n c) (parse_http_directive X n' c).
Proof. intros H. unfold parse_http_directive. mono. Qed.
Hint Resolve parse_http_directive_le : mono.
Lemma directive_le n n' incl incl' s c k : n <= n' -> (forall f, le_prog (incl f) (incl' f)) ->
  le_prog (directive X n incl s c k) (directive X n' incl' s c k).
Proof. intros H Hi. unfold directive. mono. Qed.
Hint Resolve directive_le : mono.
Variable E : penv.
Lemma read_schema_le n n' incl incl' p : n <= n' -> (forall f, le_prog (incl f) (incl' f)) ->
  le_prog (read_schema X E n incl p) (read_schema X E n' incl' p).
Proof. intros H Hi. unfold read_schema. mono. Qed.
End M.
