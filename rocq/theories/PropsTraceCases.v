(** Cases that meet the hypotheses of C97: the request and the answer named [one] of [trace_lines] (PropsTrace). *)
From Verif Require Import GoStr Outcome Value Schema Scalars Time Model Misc ParserValidate Scan Parser HttpTrace Swagger Trace
  SpecTime SpecModel SpecMisc SpecPV SpecParser SpecGen SpecTrace ModelFacts PVFacts Demo Lex FileFacts InvFacts InvNames ParsedFacts GenFacts PropsParser
  TraceFacts TraceText TraceFill PropsTrace.
From Coq Require Import Permutation.

Lemma smem_name k : negb (k =?s "") && negb (smem ":" k) && negb (smem "010" k) = true -> header_name k.
Proof.
  intros H. apply andb_true_iff in H as [H C]. apply andb_true_iff in H as [A B].
  split; [apply seqb_neq, negb_true_iff, A|]. split; apply no_char_smem, negb_true_iff; assumption.
Qed.

Example C97_request_case : exists msg,
  request_shown toy_number toy_json (http_of trace_lines) one_values msg
  /\ no_char "010" (h_method (http_of trace_lines)) /\ no_char "010" (h_path (http_of trace_lines))
  /\ (forall p, In p (h_inputs (http_of trace_lines)) -> in_header p -> header_name (ps_header p))
  /\ (forall p v t, In p (h_inputs (http_of trace_lines)) -> entry one_values (name_of p) v -> shown toy_number v t -> no_char "010" t)
  /\ reads_as (message_text msg) msg
  /\ message_text msg = lines [ "PUT /items/a?max=5 HTTP/1.1"; "X-Who: me"; "Accept: application/json"; "" ] +++ "{label...}".
Proof.
  destruct C96_case as (msg & T & _ & _ & _ & _ & _ & _ & R & _).
  assert (M : no_char "010" (h_method (http_of trace_lines))) by (apply no_char_smem; vm_compute; reflexivity).
  assert (P : no_char "010" (h_path (http_of trace_lines))) by (apply no_char_smem; vm_compute; reflexivity).
  assert (N : forall p, In p (h_inputs (http_of trace_lines)) -> in_header p -> header_name (ps_header p)).
  { intros p Ip [_ Hp]. assert (A : forallb (fun p => (ps_header p =?s "") || (negb (ps_header p =?s "") && negb (smem ":" (ps_header p))
      && negb (smem "010" (ps_header p)))) (h_inputs (http_of trace_lines)) = true) by (vm_compute; reflexivity).
    rewrite forallb_forall in A. specialize (A p Ip). apply orb_true_iff in A as [A|A]; [|apply smem_name, A].
    apply seqb_eq in A. destruct (Hp A). }
  assert (V : forall p v t, In p (h_inputs (http_of trace_lines)) -> entry one_values (name_of p) v -> shown toy_number v t -> no_char "010" t).
  { intros p v t Ip E S. apply entry_is in E. subst v. rewrite (shown_fun _ _ _ _ S (shown_is toy_number _)).
    assert (A : forallb (fun p => negb (smem "010" (string_example toy_number (example_at one_values (name_of p)))))
      (h_inputs (http_of trace_lines)) = true) by (vm_compute; reflexivity).
    rewrite forallb_forall in A. apply no_char_smem, negb_true_iff, (A p Ip). }
  exists msg. do 5 (split; [assumption|]). split; [exact (C97_request_partial _ _ _ _ _ R M P N V)|].
  rewrite <- T. vm_compute. reflexivity.
Qed.

Lemma Forall2_one (A B : Type) (R : A -> B -> Prop) a l : Forall2 R [a] l -> exists b, R a b.
Proof. intros F. inversion F; subst. eauto. Qed.
Definition trace_examples : list exampledef := sc_examples (m_schema (parse_of trace_lines)).
Example C97_answer_case : exists msg,
  answer_shown toy_number toy_json toy_status toy_date (http_of trace_lines) "one" trace_examples (Some msg)
  /\ (forall z, no_char "010" (toy_status z)) /\ (forall a b, no_char "010" (toy_date a b))
  /\ (forall x p, h_expected (http_of trace_lines) = Some x -> In p (xp_outputs x) -> ps_header p <> "" -> header_name (ps_header p))
  /\ (forall ex l p x v t, In ex trace_examples -> ex_example ex = VMap l -> h_expected (http_of trace_lines) = Some x ->
        In p (xp_outputs x) -> entry l (name_of p) v -> shown toy_number v t -> no_char "010" t)
  /\ reads_as (message_text msg) msg
  /\ exists v, hd_error (ms_headers msg) = Some ("Content-Length", v) /\ numeral v (Z.of_nat (String.length (ms_body msg))).
Proof.
  destruct (C94_trace_exact toy_number toy_json toy_status toy_date (fun l => rev l) (fun l => Permutation_sym (Permutation_rev l))
    _ _ (proj2 C94_trace_case)) as (xss & F & _).
  fold trace_examples in F.
  assert (E : sc_http (m_schema (parse_of trace_lines)) = [http_of trace_lines]) by (vm_compute; reflexivity).
  rewrite E in F. apply Forall2_one in F as (xs & _ & N & A).
  assert (I : In "one" (map xg_name xs)).
  { apply N. exists (nth 0 trace_examples (mkEx "" "" VNil "" [])). split; [apply nth_In; vm_compute; auto|].
    split; [apply request_iff; vm_compute; reflexivity|vm_compute; reflexivity]. }
  apply in_map_iff in I as (x & Nx & Ix). rewrite Forall_forall in A. destruct (A x Ix) as [_ Ans]. rewrite Nx in Ans.
  destruct (xg_response x) as [msg|].
  2:{ exfalso. apply (Ans (nth 1 trace_examples (mkEx "" "" VNil "" []))); [apply nth_In; vm_compute; auto|].
      split; [left; apply response_iff; vm_compute; reflexivity|vm_compute; reflexivity]. }
  assert (S : forall z, no_char "010" (toy_status z)).
  { intros z. unfold toy_status. destruct (z =? 200)%Z; apply no_char_smem; reflexivity. }
  assert (D : forall a b, no_char "010" (toy_date a b)) by (intros; apply no_char_smem; reflexivity).
  assert (H : forall x p, h_expected (http_of trace_lines) = Some x -> In p (xp_outputs x) -> ps_header p <> "" -> header_name (ps_header p)).
  { intros y p Ey Ip Hp.
    assert (B : match h_expected (http_of trace_lines) with None => true | Some x => forallb (fun p => (ps_header p =?s "")
      || (negb (ps_header p =?s "") && negb (smem ":" (ps_header p)) && negb (smem "010" (ps_header p)))) (xp_outputs x) end = true)
      by (vm_compute; reflexivity).
    rewrite Ey, forallb_forall in B. specialize (B p Ip). apply orb_true_iff in B as [B|B]; [|apply smem_name, B].
    apply seqb_eq in B. destruct (Hp B). }
  assert (V : forall ex l p x v t, In ex trace_examples -> ex_example ex = VMap l -> h_expected (http_of trace_lines) = Some x ->
        In p (xp_outputs x) -> entry l (name_of p) v -> shown toy_number v t -> no_char "010" t).
  { intros ex l p y v t Ie El Ey Ip Ev Sv. apply entry_is in Ev. subst v. rewrite (shown_fun _ _ _ _ Sv (shown_is toy_number _)).
    assert (B : forallb (fun ex => match ex_example ex, h_expected (http_of trace_lines) with
      | VMap l, Some x => forallb (fun p => negb (smem "010" (string_example toy_number (example_at l (name_of p))))) (xp_outputs x)
      | _, _ => true end) trace_examples = true) by (vm_compute; reflexivity).
    rewrite forallb_forall in B. specialize (B ex Ie). rewrite El, Ey, forallb_forall in B. apply no_char_smem, negb_true_iff, (B p Ip). }
  exists msg. do 5 (split; [assumption|]). split; [exact (C97_answer_partial _ _ _ _ _ _ _ _ Ans S D H V)|exact (C97_length _ _ _ _ _ _ _ _ Ans)].
Qed.
