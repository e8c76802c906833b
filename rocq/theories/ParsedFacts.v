(** What reading followed by the checks gives. *)
From Verif Require Import GoStr Outcome Value Schema Scalars Time Model ModelFacts Misc ParserValidate Scan Parser
  SpecModel SpecMisc SpecPV SpecParser PVFacts CheckFacts InvFacts FileFacts.

Lemma check_Ok X v r m : check X v r = Ok m <-> r = Ok m /\ parser_validate X m v = Ok tt.
Proof.
  unfold check. destruct r as [m'|e| |]; try (split; [discriminate|intros [H _]; discriminate]).
  destruct (parser_validate X m' v) as [[]|e| |] eqn:P; split.
  - intros [= ->]. auto.
  - intros [[= ->] H]. reflexivity.
  - discriminate.
  - intros [[= ->] H]. congruence.
  - discriminate.
  - intros [[= ->] H]. congruence.
  - discriminate.
  - intros [[= ->] H]. congruence.
Qed.
Lemma written_values sch : written_schema sch -> values_wf sch.
Proof.
  intros (W1 & _ & _ & W4). split; [|exact W4].
  intros td f Ht Hf. destruct (W1 td Ht) as (_ & _ & _ & _ & H). destruct (H f Hf) as [g (_ & Hg & _) _]. exact Hg.
Qed.
Lemma written_named sch : written_schema sch -> params_named sch.
Proof.
  intros (_ & W2 & _) h Hh. destruct (W2 h Hh) as (_ & A & B & _). split.
  - intros p Hp. destruct (proj1 (A p Hp)) as [g (Hg & _) _]. exact Hg.
  - intros x Hx p Hp. destruct (proj1 (proj2 (B x Hx) p Hp)) as [g (Hg & _) _]. exact Hg.
Qed.

Section P.
Variable X : ext.
Variable E : penv.
Hypothesis FE : files_have_text E.

Definition parsed (m : model) : Prop :=
  written_schema (m_schema m) /\ new_model (m_schema m) = Ok m /\ model_ok X (m_schema m).
Lemma checked_parsed v m : written_schema (m_schema m) -> new_model (m_schema m) = Ok m ->
  parser_validate X m v = Ok tt -> parsed m.
Proof.
  intros W Nm V. split; [exact W|]. split; [exact Nm|].
  apply (parser_validate_iff X (m_schema m) m Nm); [apply written_values, W|apply written_named, W|eauto].
Qed.
Lemma parse_string_parsed d v toks m : symbols_have_text toks -> parse_sadl_string X E d v toks = Ok m -> parsed m.
Proof.
  intros HT H. apply check_Ok in H. destruct H as (H & V).
  destruct (read_string_written X E d toks m FE HT H) as (W & Nm). eapply checked_parsed; eauto.
Qed.
Lemma parse_file_parsed d v f m : parse_sadl_file X E d v f = Ok m -> parsed m.
Proof.
  intros H. apply check_Ok in H. destruct H as (H & V).
  destruct (read_file_written X E d FE f m H) as (W & Nm). eapply checked_parsed; eauto.
Qed.

(** crashes: the checks only on a response example of an action without expectation *)
Lemma parse_string_panic d v toks : symbols_have_text toks -> parse_sadl_string X E d v toks = Panic ->
  read_string X E d toks = Panic
  \/ exists m ex, read_string X E d toks = Ok m /\ In ex (sc_examples (m_schema m)) /\ nil_response (m_schema m) ex.
Proof.
  intros HT H. unfold parse_sadl_string, check in H. destruct (read_string X E d toks) as [m|e| |] eqn:R; auto; try discriminate.
  right. exists m. destruct (read_string_written X E d toks m FE HT R) as (W & Nm).
  destruct (parser_validate X m v) eqn:V; try discriminate.
  apply (parser_validate_panic X (m_schema m) m Nm) in V. destruct V as (ex & He & V). exists ex. auto.
Qed.
End P.

(** the bounds do not matter once there is an answer *)
Lemma check_sooner X n n' r : n <= n' -> check X n r <> OutOfFuel -> check X n' r = check X n r.
Proof.
  intros Hn H. unfold check in *. destruct r as [m|e| |]; try reflexivity.
  rewrite (parser_validate_sooner X m n n' Hn); [reflexivity|]. intros E. apply H. rewrite E. reflexivity.
Qed.
Lemma parse_string_sooner X E d d' v v' toks : d <= d' -> v <= v' ->
  parse_sadl_string X E d v toks <> OutOfFuel -> parse_sadl_string X E d' v' toks = parse_sadl_string X E d v toks.
Proof.
  intros Hd Hv H. unfold parse_sadl_string in *.
  rewrite (read_string_deeper X E d d' toks Hd); [apply check_sooner; assumption|]. intros R. apply H. rewrite R. reflexivity.
Qed.
Lemma parse_file_sooner X E d d' v v' f : d <= d' -> v <= v' ->
  parse_sadl_file X E d v f <> OutOfFuel -> parse_sadl_file X E d' v' f = parse_sadl_file X E d v f.
Proof.
  intros Hd Hv H. unfold parse_sadl_file in *.
  rewrite (read_file_deeper X E d d' f Hd); [apply check_sooner; assumption|]. intros R. apply H. rewrite R. reflexivity.
Qed.
