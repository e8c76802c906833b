(** Whole files: termination, crashes, nesting of includes, block comments, pushback. *)
From Verif Require Import GoStr Outcome Value Schema Scalars Model ModelFacts Misc ParserValidate Scan ScanFacts
  Parser ParserMono ParserTerm ReadFacts SpecModel SpecMisc SpecPV SpecParser.

Section F.
Variable X : ext.
Variable E : penv.

(** ** No include: always an answer *)
Lemma read_string_no_include d toks : word_absent "include" toks -> read_string X E d toks <> OutOfFuel.
Proof.
  intros H Hr.
  assert (O : outcome True False (read_string X E d toks)).
  { unfold read_string. apply read_tokens_outcome; [auto|]. intros K. exfalso. exact (H K). }
  rewrite Hr in O. exact O.
Qed.

(** ** Includes that go down in some ranking *)
Lemma read_file_ranked (rank : string -> nat) :
  (forall f toks g, e_files E f = Some toks -> In (mkTok SYMBOL "include") toks -> In (mkTok STRING g) toks ->
     rank g < rank f) ->
  forall d f, rank f < d -> read_file X E d f <> OutOfFuel.
Proof.
  intros HR. induction d as [|d IH]; intros f Hf; [lia|]. simpl.
  destruct (e_files E f) as [toks|] eqn:F; [|discriminate]. intros Hr.
  assert (O : outcome True False (read_tokens X E (fun f => m <~ lift (read_file X E d f) ;; Ret (m_schema m)) f toks)).
  { apply read_tokens_outcome; [auto|]. intros K g st Hg. apply lift_ends.
    pose proof (HR f toks g F K Hg). specialize (IH g ltac:(lia)).
    destruct (read_file X E d g); simpl; auto. }
  rewrite Hr in O. exact O.
Qed.

(** ** Crashes need the word [operation] somewhere *)
Lemma read_file_no_crash :
  (forall f toks, e_files E f = Some toks -> word_absent "operation" toks) ->
  forall d f, read_file X E d f <> Panic.
Proof.
  intros HF. induction d as [|d IH]; intros f; simpl; [discriminate|].
  destruct (e_files E f) as [toks|] eqn:F; [|discriminate]. intros Hr.
  assert (O : outcome False True (read_tokens X E (fun f => m <~ lift (read_file X E d f) ;; Ret (m_schema m)) f toks)).
  { apply read_tokens_outcome; [intros K; exact (HF f toks F K)|]. intros K g st Hg. apply lift_ends.
    specialize (IH g). destruct (read_file X E d g); simpl; auto. }
  rewrite Hr in O. exact O.
Qed.
Lemma read_string_no_crash d toks :
  (forall f toks, e_files E f = Some toks -> word_absent "operation" toks) -> word_absent "operation" toks ->
  read_string X E d toks <> Panic.
Proof.
  intros HF H Hr. assert (O : outcome False True (read_string X E d toks)).
  { unfold read_string. apply read_tokens_outcome; [intros K; exact (H K)|]. intros K g st Hg. apply lift_ends.
    pose proof (read_file_no_crash HF d g). destruct (read_file X E d g); simpl; auto. }
  rewrite Hr in O. exact O.
Qed.

End F.

(** ** Block comments *)
Lemma same_strip l l' : same_but_block_comments l l' -> strip l = strip l'.
Proof.
  induction 1; simpl; unfold strip in *; simpl; auto.
  destruct (negb (is_block t)); congruence.
Qed.
Lemma strip_same l l' : strip l = strip l' -> same_but_block_comments l l'.
Proof.
  assert (B : forall t, is_block t = true -> t = mkTok BLOCK_COMMENT (tk_text t)).
  { intros [ty tx] H. unfold is_block in H. apply teqb_eq in H. simpl in *. subst. reflexivity. }
  revert l'. induction l as [|t l IH]; intros l' H; simpl in H.
  - induction l' as [|t' l' IH']; [constructor|]. unfold strip in H. simpl in H.
    destruct (is_block t') eqn:T; simpl in H; [|discriminate].
    rewrite (B t' T). constructor. apply IH'. exact H.
  - unfold strip in *. simpl in H. destruct (is_block t) eqn:T; simpl in H.
    + rewrite (B t T). constructor. apply IH. exact H.
    + induction l' as [|t' l' IH']; simpl in H; [discriminate|].
      destruct (is_block t') eqn:T'; simpl in H.
      * rewrite (B t' T'). constructor. apply IH'. exact H.
      * injection H; intros H2 H1. subst. constructor. apply IH. exact H2.
Qed.

Definition with_files (E : penv) (fs : string -> option (list token)) : penv :=
  mkEnv fs (e_name E) (e_namespace E) (e_base_name E) (e_version E).

Definition finish (r : result perror (schema * pstate)) : result perror model :=
  match r with
  | Ok (sch, _) => match new_model sch with Ok m => Ok m | Err _ => Err PModel | Panic => Panic | OutOfFuel => OutOfFuel end
  | Err PDeep => OutOfFuel
  | Err e => Err e
  | Panic => Panic
  | OutOfFuel => OutOfFuel
  end.
Lemma read_tokens_finish X E incl path toks n : S (length toks) < n ->
  (forall f st, ends (E_d (len st) True) True (incl f) st (fun _ st' => len st' <= len st)) ->
  read_tokens X E incl path toks = finish (run (read_schema X E n incl path) (start toks)).
Proof.
  intros Hn HI. unfold read_tokens. fold (finish (run (read_schema X E (S (S (length toks))) incl path) (start toks))).
  f_equal. symmetry. apply le_run.
  - apply read_schema_le; [lia|intro; apply le_refl].
  - intros HO.
    assert (H : ends (E_d (length toks) True) True (read_schema X E (S (S (length toks))) incl path) (start toks) (fun _ _ => True)).
    { apply read_schema_stops; auto. intros K f st Hf Hl.
      eapply ends_weaken; [|intro Hc; exact Hc|exact (HI f st)]. intros e s0 (H1 & H2). split; [exact H1|lia]. }
    apply ends_run in H. rewrite HO in H. exact H.
Qed.
Lemma finish_same r r' : same_outcome r r' -> finish r = finish r'.
Proof.
  destruct r as [[s st]|e| |], r' as [[s' st']|e'| |]; simpl; try contradiction; try reflexivity.
  - intros (-> & _). reflexivity.
  - intros ->. reflexivity.
Qed.
Lemma read_schema_env X E fs n incl path : read_schema X (with_files E fs) n incl path = read_schema X E n incl path.
Proof. reflexivity. Qed.
Lemma outcome_any {E A} (r : result E A) : outcome True True r.
Proof. destruct r; exact I. Qed.

Section B.
Variable X : ext.
Variable E : penv.
Variable fs : string -> option (list token).
Hypothesis FS : forall f, match e_files E f, fs f with
  | Some l, Some l' => same_but_block_comments l l' | None, None => True | _, _ => False end.

Lemma read_tokens_block incl incl' path l l' : same_but_block_comments l l' ->
  (forall f, incl f = incl' f) ->
  (forall f st, ends (E_d (len st) True) True (incl f) st (fun _ st' => len st' <= len st)) ->
  read_tokens X E incl path l = read_tokens X (with_files E fs) incl' path l'.
Proof.
  intros HS HI HE. set (n := S (S (length l + length l'))).
  assert (HE' : forall f st, ends (E_d (len st) True) True (incl' f) st (fun _ st' => len st' <= len st)).
  { intros f st. rewrite <- HI. apply HE. }
  rewrite (read_tokens_finish X E incl path l n) by (auto; unfold n; lia).
  rewrite (read_tokens_finish X (with_files E fs) incl' path l' n) by (auto; unfold n; lia).
  rewrite read_schema_env. apply finish_same.
  assert (R : run (read_schema X E n incl' path) (start l') = run (read_schema X E n incl path) (start l')).
  { apply le_run; [apply read_schema_le; [lia|intro f; rewrite HI; apply le_refl]|].
    intros HO.
    assert (H : ends (E_d (length l') True) True (read_schema X E n incl path) (start l') (fun _ _ => True)).
    { apply read_schema_stops; auto; [unfold n; lia|]. intros K f st Hf Hl.
      eapply ends_weaken; [|intro Hc; exact Hc|exact (HE f st)]. intros e s0 (H1 & H2). split; [exact H1|lia]. }
    apply ends_run in H. rewrite HO in H. exact H. }
  rewrite R. apply run_sim. apply sim_start. apply same_strip. exact HS.
Qed.
Lemma read_file_block d : forall f, read_file X E d f = read_file X (with_files E fs) d f.
Proof.
  induction d as [|d IH]; intros f; simpl; [reflexivity|].
  pose proof (FS f) as F. destruct (e_files E f) as [l|], (fs f) as [l'|]; try contradiction; [|reflexivity].
  apply read_tokens_block; [exact F|intro g; rewrite IH; reflexivity|].
  intros g st. apply lift_ends. apply outcome_any.
Qed.
Lemma read_string_block d l l' : same_but_block_comments l l' ->
  read_string X E d l = read_string X (with_files E fs) d l'.
Proof.
  intros H. unfold read_string. apply read_tokens_block; [exact H| |].
  - intro g. rewrite read_file_block. reflexivity.
  - intros g st. apply lift_ends. apply outcome_any.
Qed.
Lemma parse_sadl_string_block d v l l' : same_but_block_comments l l' ->
  parse_sadl_string X E d v l = parse_sadl_string X (with_files E fs) d v l'.
Proof. intros H. unfold parse_sadl_string. rewrite (read_string_block d l l' H). reflexivity. Qed.
End B.

(** ** Pushback *)
(** the tokens a run of [n] calls of GetToken delivers *)
Fixpoint reads (n : nat) (st : pstate) : list (option token) :=
  match n with O => [] | S k => let '(t, st') := get_token st in t :: reads k st' end.
Lemma reads_pending n : forall st, reads n st =
  map Some (firstn n (pending st)) ++ repeat None (n - length (pending st)).
Proof.
  induction n as [|n IH]; intros st; simpl; [reflexivity|].
  pose proof (get_token_spec st) as G. destruct (get_token st) as [[t|] st'].
  - destruct G as (G & _). rewrite G. simpl. rewrite IH. reflexivity.
  - destruct G as (G & G' & _). rewrite IH, G, G'. simpl. rewrite firstn_nil, Nat.sub_0_r. reflexivity.
Qed.
Lemma unget_reads st t st' : get_token st = (Some t, st') ->
  forall n, reads n (unget_token st') = reads n st.
Proof.
  intros G n. pose proof (get_token_spec st) as S. rewrite G in S. destruct S as (S & F).
  rewrite !reads_pending. rewrite (unget_token_spec st' t F), S. reflexivity.
Qed.
(** pushing back leaves the earlier token as the one that is pushed back next *)
Lemma reads_start toks n : reads n (start toks) = map Some (firstn n (strip toks)) ++ repeat None (n - length (strip toks)).
Proof. rewrite reads_pending. reflexivity. Qed.

Lemma reads_text toks l : same_but_block_comments toks l -> (forall x, ~ In (mkTok BLOCK_COMMENT x) l) ->
  forall n, reads n (start toks) = map Some (firstn n l) ++ repeat None (n - length l).
Proof.
  intros H HB n. rewrite reads_start, (same_strip _ _ H).
  replace (strip l) with l; [reflexivity|]. clear H. induction l as [|t l IH]; [reflexivity|].
  unfold strip in *. simpl. replace (is_block t) with false.
  - simpl. rewrite <- IH; [reflexivity|]. intros x Hx. exact (HB x (or_intror Hx)).
  - destruct t as [ty tx]. destruct ty; try reflexivity. exfalso. exact (HB tx (or_introl eq_refl)).
Qed.

(** ** The bound on nesting does not matter once there is an answer *)
Inductive le_deep {A} : prog A -> prog A -> Prop :=
| ld_deep q : le_deep (Fail PDeep) q
| ld_refl p : le_deep p p
| ld_get k k' : (forall t, le_deep (k t) (k' t)) -> le_deep (Get k) (Get k')
| ld_unget k k' : le_deep k k' -> le_deep (Unget k) (Unget k').
Lemma ld_bind {A B} (p p' : prog A) (f f' : A -> prog B) :
  le_deep p p' -> (forall a, le_deep (f a) (f' a)) -> le_deep (bind p f) (bind p' f').
Proof.
  intros H Hf. induction H as [q|p|k k' _ IH|k k' _ IH].
  - apply ld_deep.
  - induction p as [a|e| | |k IH|p IH]; unfold bind; fold (@bind A B); try apply ld_refl; auto.
    + apply ld_get. auto.
    + apply ld_unget. auto.
  - unfold bind; fold (@bind A B). apply ld_get. auto.
  - unfold bind; fold (@bind A B). apply ld_unget. auto.
Qed.
Lemma ld_loop {S A} n (b b' : S -> prog (S + A)) : (forall s, le_deep (b s) (b' s)) ->
  forall s, le_deep (loop n b s) (loop n b' s).
Proof.
  intros H. induction n as [|n IH]; intros s; unfold loop; [apply ld_refl|]; fold (@loop S A).
  apply ld_bind; [apply H|]. intros [s'|a]; [apply IH|apply ld_refl].
Qed.
Lemma ld_run {A} (p q : prog A) : le_deep p q -> forall st, run p st <> Err PDeep -> run q st = run p st.
Proof.
  intros H. induction H as [q|p|k k' _ IH|k k' _ IH]; intros st Hn; simpl in *; try reflexivity; try congruence.
  - destruct (get_token st) as [t st']. auto.
  - auto.
Qed.
Section D.
Variable X : ext.
Variable E : penv.
Lemma read_schema_deep n incl incl' path : (forall f, le_deep (incl f) (incl' f)) ->
  le_deep (read_schema X E n incl path) (read_schema X E n incl' path).
Proof.
  intros H. unfold read_schema. apply ld_loop. intros (sch & c). apply ld_get. intros [t|]; [|apply ld_refl].
  destruct (tk_type t); try apply ld_refl. apply ld_bind; [|intro; apply ld_refl].
  unfold directive. repeat (destruct (_ =?s _); [apply ld_refl|]).
  destruct (_ =?s _); [|apply ld_refl].
  apply ld_bind; [apply ld_refl|]. intros f. apply ld_bind; [apply H|]. intro; apply ld_refl.
Qed.
Lemma read_tokens_deep incl incl' path toks : (forall f, le_deep (incl f) (incl' f)) ->
  read_tokens X E incl path toks <> OutOfFuel ->
  read_tokens X E incl' path toks = read_tokens X E incl path toks.
Proof.
  intros H Hn. unfold read_tokens in *.
  rewrite (ld_run _ _ (read_schema_deep (S (S (length toks))) incl incl' path H)); [reflexivity|].
  intros HE. rewrite HE in Hn. apply Hn. reflexivity.
Qed.
Lemma lift_deep (r r' : result perror model) : (r <> OutOfFuel -> r' = r) ->
  le_deep (m <~ lift r ;; Ret (m_schema m)) (m <~ lift r' ;; Ret (m_schema m)).
Proof. intros H. apply ld_bind; [|intro; apply ld_refl]. destruct r; try (rewrite H by discriminate; apply ld_refl). apply ld_deep. Qed.
Lemma read_file_deeper d : forall d' f, d <= d' -> read_file X E d f <> OutOfFuel -> read_file X E d' f = read_file X E d f.
Proof.
  induction d as [|d IH]; intros d' f Hd Hn; [exfalso; apply Hn; reflexivity|].
  destruct d' as [|d']; [lia|]. simpl in *. destruct (e_files E f) as [toks|]; [|reflexivity].
  apply read_tokens_deep; [|exact Hn]. intros g. apply lift_deep. intros Hg. apply IH; [lia|exact Hg].
Qed.
Lemma read_string_deeper d d' toks : d <= d' -> read_string X E d toks <> OutOfFuel ->
  read_string X E d' toks = read_string X E d toks.
Proof.
  intros Hd Hn. unfold read_string in *. apply read_tokens_deep; [|exact Hn].
  intros g. apply lift_deep. intros Hg. apply read_file_deeper; assumption.
Qed.

(** A file that reaches itself never gives an answer; the simplest case. *)
Lemma self_include f rest : e_files E f = Some (mkTok SYMBOL "include" :: mkTok STRING f :: rest) ->
  forall d, read_file X E d f = OutOfFuel.
Proof.
  intros F. induction d as [|d IH]; simpl; [reflexivity|]. rewrite F. unfold read_tokens.
  cbn [length]. unfold read_schema. unfold loop at 1. rewrite run_bind. simpl run at 1.
  unfold directive. simpl. rewrite IH. reflexivity.
Qed.
End D.
