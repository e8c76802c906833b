(** The parser stops on every token sequence, and only [operation] can crash it. *)
From Verif Require Import GoStr Outcome Value Schema Scalars Model ModelFacts Misc ParserValidate Scan ScanFacts Parser ParserMono.

Definition len (st : pstate) : nat := length (pending st).

Section T.
Variables (L : nat) (C : Prop).
Definition E_ : perror -> pstate -> Prop := fun e st => e <> PDeep /\ len st <= L.
Notation ends_ := (ends E_ C).
(** ends without growing *)
Definition stops {A} (p : prog A) (d : nat) : Prop :=
  forall st, len st <= L -> ends_ p st (fun _ st' => d + len st' <= len st).

Lemma t_get {A} (k : option token -> prog A) st (Q : A -> pstate -> Prop) :
  (forall t st', len st = S (len st') -> fresh st' t -> ends_ (k (Some t)) st' Q) ->
  (forall st', len st = 0 -> len st' = 0 -> ps_ungot st' = None -> ends_ (k None) st' Q) ->
  ends_ (Get k) st Q.
Proof.
  intros H1 H2. apply ends_get. unfold len in *. destruct (pending st) eqn:P.
  - intros st' P' U. apply H2; rewrite ?P, ?P'; auto.
  - intros st' P' F. eapply H1; eauto. simpl. congruence.
Qed.
Lemma t_unget {A} (p : prog A) st t (Q : A -> pstate -> Prop) : fresh st t ->
  (forall st', len st' = S (len st) -> ends_ p st' Q) -> ends_ (Unget p) st Q.
Proof.
  intros F H. eapply ends_unget; [exact F|]. intros st' P. apply H. unfold len. rewrite P. reflexivity.
Qed.
Lemma t_call {A} (p : prog A) d st (Q : A -> pstate -> Prop) : stops p d -> len st <= L ->
  (forall a st', d + len st' <= len st -> Q a st') -> ends_ p st Q.
Proof. intros H1 H2 H3. eapply ends_mono; [apply H1, H2|]. exact H3. Qed.
Lemma t_loop {S A} fuel (body : S -> prog (S + A)) s st (Q : A -> pstate -> Prop) :
  len st <= L -> len st < fuel ->
  (forall s st', len st' <= len st ->
     ends_ (body s) st' (fun r st'' => match r with inl _ => len st'' < len st' | inr a => Q a st'' end)) ->
  ends_ (loop fuel body s) st Q.
Proof.
  intros HL Hf Hb. apply (ends_loop _ _ (fun _ st' => len st' <= len st)); [exact Hf|lia|].
  intros s0 st0 H0 I0. eapply ends_mono; [apply Hb, I0|].
  intros [s'|a] st' H; [|exact H]. unfold len in *. lia.
Qed.

End T.
Ltac fin := cbv beta in *; first [ split; [discriminate|lia] | lia | assumption ].
Ltac walk1 :=
  match goal with
  | |- ends _ _ (Ret _) _ _ => apply ends_ret; simpl
  | |- ends _ _ (Fail _) _ _ => apply ends_fail; split; [discriminate|lia]
  | |- ends _ _ fail_eof _ _ => apply ends_fail; split; [discriminate|lia]
  | |- ends _ _ fail_syntax _ _ => apply ends_fail; split; [discriminate|lia]
  | |- ends _ _ (bind _ _) _ _ => apply ends_bind
  | |- ends _ _ (Get _) _ _ => apply t_get; [intros ? ? ? ?|intros ? ? ? ?]
  | F : fresh ?st _ |- ends _ _ (Unget _) ?st _ => eapply t_unget; [exact F|intros ? ?]
  | |- ends _ _ (loop _ _ _) _ _ => apply t_loop; [lia|lia|intros ? ? ?]
  | |- ends _ _ ((fun _ => _) _) _ _ => cbv beta
  | |- ends _ _ (match ?x with _ => _ end) _ _ => destruct x
  | |- ends _ _ (let _ := _ in _) _ _ => cbv zeta
  | |- ends _ _ _ ?st _ => eapply t_call; [solve [eauto with stops]|lia|intros ? ? ?; simpl in *]
  end.
Ltac walk := repeat walk1; try fin.
Create HintDb stops.

Section T2.
Variables (L : nat) (C : Prop).
Notation ends_ := (ends (E_ L) C).
Notation stops := (stops L C).

Lemma s_identifier : stops expect_identifier 1.
Proof. intros st H. unfold expect_identifier, assert_identifier. walk. Qed.
Lemma s_assert t : stops (assert_identifier (Some t)) 0.
Proof. intros st H. unfold assert_identifier. walk. Qed.
Lemma s_expect t : stops (expect t) 1.
Proof. intros st H. unfold expect. walk. Qed.
Lemma s_string : stops expect_string 1.
Proof. intros st H. unfold expect_string. walk. Qed.
Lemma s_text : stops expect_text 1.
Proof. intros st H. unfold expect_text. walk. Qed.
Lemma s_int b : stops (expect_int b) 1.
Proof. intros st H. unfold expect_int. walk. Qed.
#[local] Hint Resolve s_identifier s_assert s_expect s_string s_text s_int : stops.
Lemma s_equals_identifier : stops expect_equals_identifier 2.
Proof. intros st H. unfold expect_equals_identifier.
 walk. Qed.
Lemma s_equals_string : stops expect_equals_string 2.
Proof. intros st H. unfold expect_equals_string. walk. Qed.
Lemma s_equals_int : stops expect_equals_int64 2.
Proof. intros st H. unfold expect_equals_int64. walk. Qed.
#[local] Hint Resolve s_equals_identifier s_equals_string s_equals_int : stops.

Section F.
Variable n : nat.
Hypothesis Hn : L < n.

Lemma s_compound m : forall st, len st <= L -> len st < m ->
  ends_ (expect_compound m) st (fun _ st' => 1 + len st' <= len st).
Proof.
  induction m as [|m IH]; intros st H Hm; [lia|]. cbn [expect_compound]. walk1. walk1.
  walk1; [|walk]. destruct (is_type DOT t); [|walk].
  walk1. eapply ends_mono; [apply IH; lia|]. intros b st3 H3. walk.
Qed.
Lemma s_compound' : stops (expect_compound n) 1.
Proof. intros st H. apply s_compound; lia. Qed.
Lemma s_eos' c : forall st, len st <= L ->
  ends_ (end_of_statement' n c) st (fun _ st' => len st' <= len st /\ ps_ungot st' = None).
Proof.
  intros st H. unfold end_of_statement'. walk1. walk1; [destruct (tk_type t)|]; walk;
    (split; [lia|]; try assumption; match goal with F : fresh _ _ |- _ => apply F end).
Qed.
Lemma s_eos'' c : stops (end_of_statement' n c) 0.
Proof. intros st H. eapply ends_mono; [apply s_eos', H|]. simpl. intros a st' (H1 & _). exact H1. Qed.
Hint Resolve s_compound' s_eos'' : stops.
Lemma s_eos c : stops (end_of_statement n c) 0.
Proof. intros st H. unfold end_of_statement. walk. Qed.
Lemma s_trailing c : stops (parse_trailing_comment c) 0.
Proof. intros st H. unfold parse_trailing_comment. walk. Qed.
Lemma s_block_done c : forall st, len st <= L ->
  ends_ (is_block_done n c) st (fun r st' => len st' <= len st).
Proof. intros st H. unfold is_block_done. walk. Qed.
Lemma s_block_done' c : stops (is_block_done n c) 0.
Proof. intros st H. exact (s_block_done c st H). Qed.
Lemma s_string_array : stops (expect_equals_string_array n) 2.
Proof. intros st H. unfold expect_equals_string_array. walk. Qed.
Lemma s_extended a s : stops (parse_extended_option a s) 0.
Proof. intros st H. unfold parse_extended_option. walk. Qed.
Hint Resolve s_eos s_trailing s_block_done' s_string_array s_extended : stops.

Variable X : ext.
Lemma s_number : stops (expect_number X) 1.
Proof. intros st H. unfold expect_number. walk. Qed.
Hint Resolve s_number : stops.
Lemma s_equals_number : stops (expect_equals_number X) 2.
Proof. intros st H. unfold expect_equals_number. walk. Qed.
Hint Resolve s_equals_number : stops.
Lemma s_lit_string s : stops (parse_literal_string s) 0.
Proof. intros st H. unfold parse_literal_string. walk. Qed.
Lemma s_lit_number s : stops (parse_literal_number X s) 0.
Proof. intros st H. unfold parse_literal_number. walk. Qed.
Lemma s_lit_symbol s : stops (parse_literal_symbol s) 0.
Proof. intros st H. unfold parse_literal_symbol. walk. Qed.
Hint Resolve s_lit_string s_lit_number s_lit_symbol : stops.
Lemma s_literal m : forall t st, len st <= L -> S (len st) < m ->
  ends_ (parse_literal X m t) st (fun _ st' => len st' <= len st).
Proof.
  induction m as [|m IH]; intros t st H Hm; [lia|]. cbn [parse_literal].
  destruct (tk_type t); try solve [walk].
  - do 3 walk1; [|walk]. destruct (tk_type t0); try solve [walk].
    do 6 walk1; [|walk].
    eapply ends_mono; [apply IH; lia|]. intros v st3 HH. walk.
  - do 3 walk1; [|walk]. destruct (tk_type t0); try solve [walk];
      (walk1; eapply ends_mono; [apply IH; lia|]; intros v st3 HH; walk).
Qed.
Lemma s_literal_value : stops (parse_literal_value X n) 1.
Proof.
  intros st H. unfold parse_literal_value. walk1; [|walk].
  eapply ends_mono; [apply s_literal; lia|]. simpl. intros; lia.
Qed.
Hint Resolve s_literal_value : stops.
Lemma s_option m o : stops (parse_option X n m o) 0.
Proof. intros st H. unfold parse_option, parse_equals_literal. walk. Qed.
Hint Resolve s_option : stops.
Lemma s_options acc : stops (parse_options X n acc) 0.
Proof. intros st H. unfold parse_options. walk. Qed.
Hint Resolve s_options : stops.
Lemma s_enum_element : stops (parse_enum_element X n) 1.
Proof. intros st H. unfold parse_enum_element. walk. Qed.
Lemma s_type_spec_of te : stops (type_spec_of te) 0.
Proof. intros st H. unfold type_spec_of, array_params, map_params, unit_params. walk. Qed.
Hint Resolve s_type_spec_of : stops.
Lemma s_type_spec p c : stops p 1 -> stops (parse_type_spec p c) 1.
Proof. intros Hp st H. unfold parse_type_spec. walk. Qed.
Hint Resolve s_type_spec : stops.
Lemma s_struct_field p : stops p 1 -> stops (parse_struct_field X n p) 1.
Proof. intros Hp st H. unfold parse_struct_field. walk. Qed.
Lemma s_angle s : stops (parse_angle n s) 1.
Proof.
  intros st H. unfold parse_angle. walk.
Qed.
Lemma s_collect {A} (item : prog (option A)) : stops item 1 -> stops (collect n item) 1.
Proof. intros Hp st H. unfold collect.
  repeat walk1. destruct a; fin. Qed.
Lemma s_intro : stops brace_intro 0.
Proof. intros st H. unfold brace_intro. walk. Qed.
End F.
End T2.
#[export] Hint Resolve s_identifier s_assert s_expect s_string s_text s_int s_equals_identifier
  s_equals_string s_equals_int s_compound' s_eos'' s_eos s_trailing s_block_done' s_string_array s_extended
  s_number s_equals_number s_lit_string s_lit_number s_lit_symbol s_literal_value s_option s_options
  s_enum_element s_type_spec_of s_type_spec s_struct_field s_angle s_collect s_intro : stops.

Lemma s_elems X C m : forall L, L < m -> stops L C (type_spec_elements X m) 1.
Proof.
  induction m as [|m IH]; intros L HL st H; [lia|]. cbn [type_spec_elements].
  walk1. walk1. rename st' into st1.
  apply (ends_weaken (E_ (L - 1)) _ C C); [|auto|].
  { intros e s0 (HE & HS). split; [exact HE|lia]. }
  assert (HL' : L - 1 < m) by lia. pose proof (IH _ HL') as Hs.
  repeat first
  [ lazymatch goal with |- ends _ _ (bind (end_of_statement' _ _) _) _ _ =>
      apply ends_bind; eapply ends_mono; [apply s_eos'; lia|];
      let U := fresh "U" in intros (c' & ok) st3 (? & U); cbv beta iota;
      apply ends_unget_any; [exact U|]; intros; unfold len in * end
  | walk1 ]; fin.
Qed.
#[export] Hint Resolve s_elems : stops.

Section T3.
Variables (L : nat) (C : Prop) (n : nat) (X : ext).
Hypothesis Hn : L < n.
Notation ends_ := (ends (E_ L) C).
Notation stops := (stops L C).
Lemma s_type_options acc ts : stops (type_options X n acc ts) 0.
Proof. intros st H. unfold type_options. walk. Qed.
Hint Resolve s_type_options : stops.
Lemma s_simple_def acc a c ts : stops (simple_def X n acc a c ts) 0.
Proof. intros st H. unfold simple_def. walk. Qed.
Lemma s_unit_params ps : stops (unit_params ps) 0.
Proof. intros st H. unfold unit_params. walk. Qed.
Lemma s_array_params ps : stops (array_params ps) 0.
Proof. intros st H. unfold array_params. walk. Qed.
Lemma s_map_params ps : stops (map_params ps) 0.
Proof. intros st H. unfold map_params. walk. Qed.
Hint Resolve s_simple_def s_unit_params s_array_params s_map_params : stops.
Lemma s_type_directive c : stops (parse_type_directive X n c) 2.
Proof. intros st H. unfold parse_type_directive. walk. Qed.
Lemma s_example_directive c : stops (parse_example_directive X n c) 2.
Proof. intros st H. unfold parse_example_directive. walk. Qed.
Lemma s_namespace : stops (parse_namespace n) 1.
Proof. intros st H. unfold parse_namespace. walk. Qed.
Lemma s_version : stops parse_version 1.
Proof. intros st H. unfold parse_version. walk. Qed.
Lemma s_base : stops parse_base 1.
Proof. intros st H. unfold parse_base. walk. Qed.
Lemma s_string_eol : stops parse_string_to_eol 0.
Proof. intros st H. unfold parse_string_to_eol. walk. Qed.
Lemma s_http_param p s c : stops (parse_http_param X n p s c) 1.
Proof. intros st H. unfold parse_http_param. walk. Qed.
Hint Resolve s_type_directive s_example_directive s_namespace s_version s_base s_string_eol s_http_param : stops.
Lemma s_http_expected h c : stops (parse_http_expected X n h c) 1.
Proof. intros st H. unfold parse_http_expected. walk. Qed.
Lemma s_http_exception h c : stops (parse_http_exception X n h c) 1.
Proof. intros st H. unfold parse_http_exception. walk. Qed.
Hint Resolve s_http_expected s_http_exception : stops.
Lemma s_http_spec h c : stops (parse_http_spec X n h c) 1.
Proof. intros st H. unfold parse_http_spec. walk. Qed.
Hint Resolve s_http_spec : stops.
Lemma s_http_directive c : stops (parse_http_directive X n c) 2.
Proof. intros st H. unfold parse_http_directive. walk. Qed.
End T3.
#[export] Hint Resolve s_type_directive s_example_directive s_namespace s_version s_base s_string_eol
  s_http_directive : stops.

(** ** Operations: here, and only here, the code can crash *)
Section Op.
Variables (L n : nat) (X : ext).
Hypothesis Hn : L < n.
Notation ends_ := (ends (E_ L) True).
Notation stops := (stops L True).
Lemma t_crash {A} st (Q : A -> pstate -> Prop) : ends_ Crash st Q.
Proof. exact I. Qed.
Ltac walkc := repeat first [apply t_crash | walk1]; try fin.
Lemma s_op_input t : stops (op_input n t) 0.
Proof. intros st H. unfold op_input, op_symbol. walkc. Qed.
Lemma s_op_output t : stops (op_output t) 0.
Proof. intros st H. unfold op_output, op_symbol. walkc. Qed.
Lemma s_op_exception t : stops (op_exception t) 0.
Proof. intros st H. unfold op_exception. walkc. Qed.
Lemma s_op_section {A} (entry : token -> prog A) : (forall t, stops (entry t) 0) ->
  stops (op_section n entry) 0.
Proof.
  intros He st H. unfold op_section. apply t_get; [intros t st1 H1 F1|intros; apply t_crash].
  destruct (is_type OPEN_BRACE t); [|walk].
  (* the loop looks one token ahead: it has been read already *)
  assert (G : forall m l t st2, len st2 < len st ->
    (match t with Some _ => S (len st2) < m | None => 0 < m end) ->
    ends_ (loop m (fun '((l, t) : list A * option token) =>
          match t with
          | None => Ret (inr [])
          | Some tok =>
              match tk_type tok with
              | CLOSE_BRACE => Ret (inr l)
              | NEWLINE => Get (fun t => match t with None => fail_eof | Some _ => Ret (inl (l, t)) end)
              | _ => a <~ entry tok ;; Get (fun t => Ret (inl (l ++ [a], t)))
              end
          end) (l, t)) st2 (fun _ st' => len st' <= len st)).
  { induction m as [|m IH]; intros l t2 st2 H2 Hm; [destruct t2; lia|]. cbn [loop]. apply ends_bind.
    destruct t2 as [t2|]; [|apply ends_ret, ends_ret; lia].
    assert (G1 : ends_ (a <~ entry t2 ;; Get (fun t => Ret (inl (l ++ [a], t)))) st2
       (fun r st' => ends_ match r with inl s => loop m (fun '((l, t) : list A * option token) =>
          match t with
          | None => Ret (inr [])
          | Some tok =>
              match tk_type tok with
              | CLOSE_BRACE => Ret (inr l)
              | NEWLINE => Get (fun t => match t with None => fail_eof | Some _ => Ret (inl (l, t)) end)
              | _ => a <~ entry tok ;; Get (fun t => Ret (inl (l ++ [a], t)))
              end
          end) s | inr a => Ret a end st' (fun _ st' => len st' <= len st))).
    { walk1. eapply t_call; [apply He|lia|]. intros a st3 H3. simpl in H3.
      apply t_get.
      - intros t3 st4 H4 F4. apply ends_ret. apply IH; lia.
      - intros st4 Z H4 U4. apply ends_ret. apply IH; lia. }
    destruct (tk_type t2); try exact G1.
    - apply t_get; [intros t3 st4 H4 F4|intros; walk]. apply ends_ret. apply IH; lia.
    - apply ends_ret, ends_ret. lia. }
  apply t_get.
  - intros t2 st2 H2 F2. apply G; lia.
  - intros st2 Z H2 U2. apply G; lia.
Qed.
Hint Resolve s_op_input s_op_output s_op_exception s_op_section : stops.
Lemma s_operation c : stops (parse_operation_directive X n c) 2.
Proof.
  intros st H. unfold parse_operation_directive. walk1. walk1. walk1.
  assert (G : forall o st2, S (len st2) <= len st -> ends_ (
    _ <~ expect OPEN_BRACE ;;
    '(ins, outs, excs) <~ loop n (fun '((ins, outs, excs) : list fielddef * list opoutput * list string) =>
      Get (fun t => match t with
        | None => fail_eof
        | Some tok =>
            match tk_type tok with
            | CLOSE_BRACE => Ret (inr (ins, outs, excs))
            | SYMBOL =>
                if tk_text tok =?s "inputs" then i <~ op_section n (op_input n) ;; Ret (inl (i, outs, excs))
                else if tk_text tok =?s "outputs" then x <~ op_section n op_output ;; Ret (inl (ins, x, excs))
                else if tk_text tok =?s "exceptions" then x <~ op_section n op_exception ;; Ret (inl (ins, outs, x))
                else Fail (PBad "section")
            | _ => Ret (inl (ins, outs, excs))
            end
        end)) ([], [], []) ;;
    match o with
    | None => Crash
    | Some o => Ret (mkOp a c (o_annos o) ins outs excs)
    end) st2 (fun _ st' => S (S (len st')) <= len st)).
  { intros o st2 H2. walkc. }
  apply ends_try. apply (ends_weaken (E_ (len st')) _ True True); [|auto|].
  - intros e s0 (_ & HS). refine (G None s0 _). lia.
  - eapply ends_mono; [apply s_options; unfold E_; lia|]. intros o st2 H2. refine (G (Some o) st2 _). cbv beta in *. lia.
Qed.
End Op.
#[export] Hint Resolve s_operation : stops.
