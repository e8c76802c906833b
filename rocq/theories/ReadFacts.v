(** Reading a whole file: termination, crashes, fuel, block comments. *)
From Verif Require Import GoStr Outcome Value Schema Scalars Model ModelFacts Misc ParserValidate Scan ScanFacts Parser ParserMono ParserTerm.

(** ** Every token a program meets is one of the file *)
Definition all_tokens (P : token -> Prop) (st : pstate) : Prop :=
  Forall P (ps_rest st) /\ (forall t, ps_last st = Some t -> P t)
  /\ (forall t, ps_prev st = Some t -> P t) /\ (forall t, ps_ungot st = Some t -> P t).
Lemma skip_block_all (P : token -> Prop) l : Forall P l ->
  match skip_block l with Some (t, r) => P t /\ Forall P r | None => True end.
Proof.
  induction l as [|t l IH]; intros H; simpl; [exact I|].
  inversion H; subst. destruct (tk_type t); try (split; assumption). apply IH. assumption.
Qed.
Lemma get_all P st : all_tokens P st ->
  all_tokens P (snd (get_token st)) /\ (forall t, fst (get_token st) = Some t -> P t).
Proof.
  intros (H1 & H2 & H3 & H4). unfold get_token.
  destruct (ps_ungot st) as [u|] eqn:U; simpl.
  - pose proof (H4 u eq_refl). repeat split; simpl; auto; try congruence; intros t Ht; injection Ht as <-; auto.
  - pose proof (skip_block_all P _ H1) as HS. destruct (skip_block (ps_rest st)) as [[t r]|]; simpl.
    + destruct HS as (Ht & Hr). repeat split; simpl; auto; try congruence; intros t' Ht'; injection Ht' as <-; auto.
    + repeat split; simpl; auto; try congruence; try discriminate.
Qed.
Lemma unget_all P st : all_tokens P st -> all_tokens P (unget_token st).
Proof. intros (H1 & H2 & H3 & H4). unfold unget_token. repeat split; simpl; auto. Qed.
Lemma ends_all E C {A} P (p : prog A) : forall st Q, all_tokens P st -> ends E C p st Q ->
  ends E C p st (fun a st' => Q a st' /\ all_tokens P st').
Proof.
  induction p as [a|e| | |k IH|p IH]; intros st Q Ha H; unfold ends in *; fold (@ends E C A) in *; auto.
  - pose proof (get_all P st Ha) as (G1 & _).
    destruct (get_token st) as [t st']. apply IH; auto.
  - apply IH; auto. apply unget_all, Ha.
Qed.
Lemma start_all P toks : Forall P toks -> all_tokens P (start toks).
Proof. intros H. repeat split; simpl; auto; discriminate. Qed.

(** ** Termination of a whole file *)
Definition E_d (L : nat) (d : Prop) : perror -> pstate -> Prop := fun e st => (e = PDeep -> d) /\ len st <= L.
Lemma E_d_weaken L d e st : E_ L e st -> E_d L d e st.
Proof. intros (H1 & H2). split; [intro; contradiction|exact H2]. Qed.

Lemma directive_stops L n X (C d : Prop) incl sch c kw : L < n -> (kw = "operation" -> C) ->
  forall st, len st <= L ->
  (kw = "include" -> forall f st', len st' <= len st -> (forall P, all_tokens P st -> P (mkTok STRING f)) ->
     ends (E_d L d) C (incl f) st' (fun _ st'' => len st'' <= len st')) ->
  ends (E_d L d) C (directive X n incl sch c kw) st (fun _ st' => len st' <= len st).
Proof.
  intros HL HC st Hst HI. unfold directive.
  assert (W : forall p : prog schema, ends (E_ L) C p st (fun _ st' => len st' <= len st) ->
     ends (E_d L d) C p st (fun _ st' => len st' <= len st)).
  { intros p Hp. eapply ends_weaken; [|intro Hc; exact Hc|exact Hp]. intros e s0 He. apply E_d_weaken, He. }
  destruct (kw =?s "name"); [apply W; walk|].
  destruct (kw =?s "namespace"); [apply W; walk|].
  destruct (kw =?s "version"); [apply W; walk|].
  destruct (kw =?s "type"); [apply W; walk|].
  destruct (kw =?s "example"); [apply W; walk|].
  destruct (kw =?s "base"); [apply W; walk|].
  destruct (kw =?s "operation") eqn:K.
  { apply seqb_eq in K. apply W. eapply (ends_weaken (E_ L) _ True C); [auto|intros _; exact (HC K)|]. walk. }
  destruct (kw =?s "http"); [apply W; walk|].
  destruct (kw =?s "include") eqn:K'.
  { apply seqb_eq in K'. apply ends_bind. 
    assert (G : ends (E_d L d) C expect_string st (fun f st' => len st' <= len st /\ (forall P, all_tokens P st -> P (mkTok STRING f)))).
    { unfold expect_string, ends. pose proof (get_token_spec st) as G1.
      destruct (get_token st) as [[t|] st'] eqn:G.
      - destruct (is_type STRING t) eqn:T; fold (@ends (E_d L d) C string); unfold ends.
        + destruct G1 as (G1 & F). split; [unfold len; rewrite G1; simpl; lia|].
          intros P HP. pose proof (proj2 (get_all P st HP) t) as HT. rewrite G in HT. specialize (HT eq_refl).
          apply teqb_eq in T. destruct t as [tt tx]. simpl in *. subst. exact HT.
        + destruct G1 as (G1 & F). split; [discriminate|]. unfold len in *. rewrite G1 in Hst. simpl in Hst. lia.
      - destruct G1 as (G1 & G2 & _). split; [discriminate|]. unfold len in *. rewrite G2. simpl. lia. }
    eapply ends_mono; [exact G|]. intros f st1 (H1 & H2). cbv beta.
    apply ends_bind. eapply ends_mono; [apply HI; auto|]. intros inc st2 H3. cbv beta in *.
    unfold include_into. destruct (new_model _); try (apply ends_fail; split; [discriminate|lia]).
    destruct (forallb _ _); [apply ends_ret; lia|]. apply ends_fail; split; [discriminate|lia]. }
  apply W. destruct (has_prefix "x_" kw); walk.
Qed.

Lemma read_schema_stops L n X E (C d : Prop) incl path toks : length toks <= L -> L < n ->
  (In (mkTok SYMBOL "operation") toks -> C) ->
  (In (mkTok SYMBOL "include") toks -> forall f st, In (mkTok STRING f) toks -> len st <= L ->
     ends (E_d L d) C (incl f) st (fun _ st' => len st' <= len st)) ->
  ends (E_d L d) C (read_schema X E n incl path) (start toks) (fun _ _ => True).
Proof.
  intros HL Hn HC HI. unfold read_schema.
  pose proof (strip_length toks) as SL.
  apply (ends_loop _ _ (fun _ st => len st <= L /\ all_tokens (fun t => In t toks) st)).
  { unfold pending, start. simpl. lia. }
  { split; [unfold len, pending, start; simpl; lia|]. apply start_all. apply Forall_forall. auto. }
  intros (sch & c) st _ (Hst & Ha).
  unfold ends at 1. fold (@ends (E_d L d) C ((schema * string) + schema)).
  pose proof (get_token_spec st) as G. pose proof (get_all _ _ Ha) as (A1 & A2).
  destruct (get_token st) as [[t|] st']; [|exact I].
  simpl in A1, A2. specialize (A2 t eq_refl). destruct G as (G & F).
  assert (Hl : S (len st') = len st) by (unfold len; rewrite G; reflexivity).
  destruct (tk_type t) eqn:T; try (apply ends_fail; split; [discriminate|lia]);
    try (apply ends_ret; unfold len in *; split; [lia|split; [lia|exact A1]]).
  apply ends_bind. eapply ends_mono; [eapply ends_all; [exact A1|]|].
  - apply (directive_stops L n X C d incl sch c (tk_text t)); [exact Hn| |lia|].
    + intros K. apply HC. destruct t; simpl in *; subst; exact A2.
    + intros K f st1 H1 H2. apply HI; [destruct t; simpl in *; subst; exact A2| |lia].
      apply (H2 (fun t => In t toks)). exact A1.
  - intros sch' st2 (H2 & A3). apply ends_ret. unfold len in *. split; [lia|]. split; [lia|exact A3].
Qed.

Lemma new_model_res sch : (exists m, new_model sch = Ok m) \/ (exists e, new_model sch = Err e).
Proof.
  unfold new_model. destruct (add_types_res (sc_types sch) base_index) as [[ti ->]|[e ->]]; simpl; [|eauto].
  destruct (add_http_res (sc_http sch) []) as [[hi ->]|[e ->]]; simpl; eauto.
Qed.

(** What [read_tokens] gives, apart from the model *)
Definition outcome {E A} (C d : Prop) (r : result E A) : Prop :=
  match r with Panic => C | OutOfFuel => d | _ => True end.
Lemma read_tokens_outcome X E (C d : Prop) incl path toks :
  (In (mkTok SYMBOL "operation") toks -> C) ->
  (In (mkTok SYMBOL "include") toks -> forall f st, In (mkTok STRING f) toks ->
     ends (E_d (len st) d) C (incl f) st (fun _ st' => len st' <= len st)) ->
  outcome C d (read_tokens X E incl path toks).
Proof.
  intros HC HI. unfold read_tokens.
  pose proof (read_schema_stops (length toks) (S (S (length toks))) X E C d incl path toks
    (Nat.le_refl _) ltac:(lia) HC) as H.
  assert (H' : ends (E_d (length toks) d) C (read_schema X E (S (S (length toks))) incl path) (start toks)
    (fun _ _ => True)).
  { apply H. intros K f st Hf Hl. eapply ends_weaken; [|intro Hc; exact Hc|exact (HI K f st Hf)].
    intros e s0 (H1 & H2). split; [exact H1|lia]. }
  apply ends_run in H'.
  destruct (run _ _) as [[sch st]|e| |]; simpl; auto.
  - destruct (new_model_res sch) as [[m ->]|[e ->]]; simpl; exact I.
  - destruct H' as (st' & H1 & _). destruct e; simpl; auto.
  - contradiction.
Qed.
Lemma read_tokens_not_deep X E incl path toks : read_tokens X E incl path toks <> Err PDeep.
Proof.
  unfold read_tokens. destruct (run _ _) as [[sch st]|e| |]; try discriminate.
  - destruct (new_model_res sch) as [[m ->]|[e ->]]; discriminate.
  - destruct e; discriminate.
Qed.
Lemma read_file_not_deep X E d path : read_file X E d path <> Err PDeep.
Proof.
  destruct d; simpl; [discriminate|]. destruct (e_files E path); [apply read_tokens_not_deep|discriminate].
Qed.
Lemma lift_ends X E C d n f st : outcome C d (read_file X E n f) ->
  ends (E_d (len st) d) C (m <~ lift (read_file X E n f) ;; Ret (m_schema m)) st (fun _ st' => len st' <= len st).
Proof.
  intros H. pose proof (read_file_not_deep X E n f) as ND.
  destruct (read_file X E n f) as [m|e| |]; simpl in *; unfold bind; simpl.
  - apply ends_ret. lia.
  - apply ends_fail. split; [congruence|lia].
  - exact H.
  - apply ends_fail. split; [auto|lia].
Qed.
