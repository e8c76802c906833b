(** Includes. *)
From Verif Require Import GoStr Outcome Value Schema Scalars Time Model ModelFacts Misc ParserValidate Scan ScanFacts Parser
  ReadFacts FileFacts Gives SpecModel Acts SpecText SpecOptions LiteralFacts OptionFacts PositionFacts.

Lemma marked_mark f a : marked_annos f a (mark f a).
Proof.
  intros k. unfold mark. destruct (string_dec k "x_include") as [-> |N]; [apply assoc_set_same|apply assoc_set_other, N].
Qed.
Lemma forall2_map {A} (R : A -> A -> Prop) (g : A -> A) l : (forall a, R a (g a)) -> Forall2 R l (map g l).
Proof. intros H. induction l; simpl; constructor; auto. Qed.
Lemma include_extends sch inc f st sch' st' : run (include_into sch inc f) st = Ok (sch', st') ->
  extends_by f sch inc sch' /\ collision_free sch /\ ~ clash sch inc /\ sc_comment sch' = sc_comment sch.
Proof.
  intros R. unfold include_into in R. destruct (new_model sch) as [m|e| |] eqn:M; try discriminate.
  destruct (forallb _ (sc_types inc)) eqn:F in R; [|discriminate]. apply run_ret_inv in R as (-> & _).
  split; [|split; [|split]].
  - eexists (map (mark_type f) (sc_types inc)), (map (mark_http f) (sc_http inc)), (map (mark_op f) (sc_operations inc)).
    simpl. split; [reflexivity|]. split.
    { apply forall2_map. intros x. unfold marked_type, mark_type. simpl. do 3 (split; [reflexivity|]). apply marked_mark. }
    split; [reflexivity|]. split.
    { apply forall2_map. intros x. unfold marked_http, mark_http. simpl. do 8 (split; [reflexivity|]). apply marked_mark. }
    split; [reflexivity|]. split.
    { apply forall2_map. intros x. unfold marked_op, mark_op. simpl. do 5 (split; [reflexivity|]). apply marked_mark. }
    do 5 (split; [reflexivity|]). reflexivity.
  - apply (proj2 (proj2 (new_model_iff sch)) m M).
  - intros (td & I1 & I2). rewrite forallb_forall in F. specialize (F td I1).
    apply in_map_iff in I2 as (td' & E & I2).
    destruct (find_type m (td_name td)) eqn:Q; [discriminate|].
    apply (proj1 (find_type_none sch m M _) Q td'). right. auto.
  - reflexivity.
Qed.
Lemma include_succeeds sch inc f st : collision_free sch -> collision_free inc -> ~ clash sch inc ->
  exists sch', run (include_into sch inc f) st = Ok (sch', st).
Proof.
  intros C CI N. unfold include_into. destruct (proj1 (new_model_iff sch) C) as (m & M). rewrite M.
  assert (forallb (fun td => match find_type m (td_name td) with Some _ => false | None => true end) (sc_types inc) = true) as F.
  { apply forallb_forall. intros td I. destruct (find_type m (td_name td)) as [td'|] eqn:Q; [|reflexivity].
    exfalso. apply (find_type_spec sch m M) in Q as [(B & _)|(I2 & E)].
    - destruct CI as (_ & CI & _). apply (CI td I B).
    - apply N. exists td. split; [exact I|]. rewrite <- E. apply in_map, I2. }
  rewrite F. eexists. reflexivity.
Qed.
Lemma include_clash sch inc f st : clash sch inc -> exists e, run (include_into sch inc f) st = Err e.
Proof.
  intros (td & I1 & I2). unfold include_into.
  destruct (new_model_res sch) as [(m & M)|(e & M)]; rewrite M; [|eexists; reflexivity].
  destruct (forallb _ (sc_types inc)) eqn:F; [|eexists; reflexivity]. exfalso.
  rewrite forallb_forall in F. specialize (F td I1). apply in_map_iff in I2 as (td' & E & I2).
  destruct (find_type m (td_name td)) eqn:Q; [discriminate|].
  apply (proj1 (find_type_none sch m M _) Q td'). right. auto.
Qed.

Definition incl_of X E d : string -> prog schema := fun f => m <~ lift (read_file X E d f) ;; Ret (m_schema m).
Lemma incl_run X E d f st : run (incl_of X E d f) st =
  match read_file X E d f with Ok m => Ok (m_schema m, st) | Err e => Err e | Panic => Panic | OutOfFuel => Err PDeep end.
Proof. unfold incl_of, lift. destruct (read_file X E d f); reflexivity. Qed.
Lemma directive_include X E n d sch c : directive X n (incl_of X E d) sch c "include" =
  (fname <~ expect_string ;; inc <~ incl_of X E d fname ;; include_into (merge_sc_comment sch c) inc fname).
Proof. reflexivity. Qed.
Lemma read_file_free X E d f m : read_file X E d f = Ok m -> collision_free (m_schema m).
Proof.
  destruct d as [|d]; [discriminate|]. simpl. destruct (e_files E f) as [toks|]; [|discriminate].
  unfold read_tokens. destruct (run _ _) as [[sch st]|e| |]; try discriminate; [|destruct e; discriminate].
  destruct (new_model sch) as [m'|e| |] eqn:M; try discriminate. injection 1 as <-.
  pose proof (new_model_inv _ _ M) as (C & _). destruct (new_model_iff sch) as (_ & _ & W).
  assert (m_schema m' = sch) as ->; [|exact (W _ M)].
  unfold new_model in M. apply rbind_Ok in M as (ti & _ & M). apply rbind_Ok in M as (hi & _ & M). injection M as <-. reflexivity.
Qed.
Lemma include_iff X E n d sch c st f r inc : pending st = mkTok STRING f :: r -> read_file X E d f = Ok inc -> collision_free sch ->
  (clash sch (m_schema inc) -> exists e, run (directive X n (incl_of X E d) sch c "include") st = Err e)
  /\ (~ clash sch (m_schema inc) -> exists sch' st', run (directive X n (incl_of X E d) sch c "include") st = Ok (sch', st')
        /\ pending st' = r /\ extends_by f sch (m_schema inc) sch').
Proof.
  intros P RF C. rewrite (directive_include X E n d sch c).
  destruct (run_acts _ _ st f r a_string) as (st1 & R1 & P1). { rewrite P. apply f_text_tok. }
  rewrite run_bind, R1. simpl. rewrite run_bind, incl_run, RF. simpl.
  split.
  - intros H. apply include_clash. exact H.
  - intros H. destruct (include_succeeds (merge_sc_comment sch c) (m_schema inc) f st1) as (sch' & R).
    + exact C.
    + eapply read_file_free, RF.
    + exact H.
    + exists sch', st1. rewrite R. split; [reflexivity|]. split; [exact P1|].
      apply include_extends in R as (K & _). exact K.
Qed.
Lemma include_inv X E n d sch c st sch' st' : run (directive X n (incl_of X E d) sch c "include") st = Ok (sch', st') ->
  exists f inc, pending st = mkTok STRING f :: pending st' /\ read_file X E d f = Ok inc
    /\ extends_by f sch (m_schema inc) sch' /\ ~ clash sch (m_schema inc).
Proof.
  intros R. rewrite (directive_include X E n d sch c) in R. apply run_bind_inv in R as (f & st1 & R1 & R).
  apply string_inv in R1. apply run_bind_inv in R as (inc & st2 & R2 & R). rewrite incl_run in R2.
  destruct (read_file X E d f) as [m|e| |] eqn:RF; try discriminate. injection R2 as <- <-.
  exists f, m. destruct (include_extends _ _ _ _ _ _ R) as (K & _ & N & _).
  assert (st' = st1) as ->.
  { unfold include_into in R. destruct (new_model _); try discriminate. destruct (forallb _ _); [|discriminate].
    apply run_ret_inv in R as (_ & ->). reflexivity. }
  split; [exact R1|]. split; [exact RF|]. split; [exact K|exact N].
Qed.

(** ** Whole files *)
Definition reads X E d (f : string) (sch : schema) : Prop := exists m, read_file X E d f = Ok m /\ sch = m_schema m.
Definition in_segments X E d toks (l : list typedef) : Prop := exists segs, l = concat segs /\ Forall (segment (reads X E d) toks) segs.
Lemma segments_nil X E d toks : in_segments X E d toks [].
Proof. exists []. split; constructor. Qed.
Lemma segments_add X E d toks l seg : in_segments X E d toks l -> segment (reads X E d) toks seg -> in_segments X E d toks (l ++ seg).
Proof.
  intros (segs & -> & F) S. exists (segs ++ [seg]). rewrite concat_app. simpl. rewrite app_nil_r.
  split; [reflexivity|]. apply Forall_app. split; [exact F|]. constructor; [exact S|constructor].
Qed.
Section W.
Variables (X : ext) (E : penv) (d : nat) (toks : list token).
Let T (t : token) : Prop := In t toks.
Lemma wd_any {A} (p : prog A) : gives T p (fun _ => True).
Proof. induction p as [a|e| | |k IH|p IH]; simpl; try exact I; [split; intros; apply IH|exact IH]. Qed.
Lemma wd_identifier : gives T expect_identifier (fun s => In (word s) toks).
Proof.
  simpl. split; [|exact I]. intros t Ht. unfold expect_identifier. destruct t as [ty s]; destruct ty; simpl; try exact I.
  exact Ht.
Qed.
Lemma wd_string : gives T expect_string (fun s => In (mkTok STRING s) toks).
Proof. simpl. split; [|exact I]. intros t Ht. destruct t as [ty s]; destruct ty; simpl; try exact I. exact Ht. Qed.
Lemma wd_simple n acc name c ts : gives T (simple_def X n acc name c ts) (fun td => td_name td = name).
Proof.
  unfold simple_def. eapply gives_bind, gives_mono; [apply wd_any|]. intros [? ?] _.
  eapply gives_bind, gives_mono; [apply wd_any|]. intros ? _. reflexivity.
Qed.
Ltac wgo := repeat (match goal with
  | |- gives _ (bind (simple_def _ _ _ _ _ _) _) _ => eapply gives_bind, gives_mono; [apply wd_simple|]; intros ? ?
  | |- gives _ (simple_def _ _ _ _ _ _) _ => eapply gives_mono; [apply wd_simple|]; intros ? ->
  | |- gives _ (bind _ _) _ => eapply gives_bind, gives_mono; [apply wd_any|]; intros ? _
  | |- gives _ (if ?b then _ else _) _ => destruct b
  | |- gives _ (match ?x with _ => _ end) _ => destruct x
  end; cbv beta zeta).
Lemma wd_type n c : gives T (parse_type_directive X n c) (fun td => In (word (td_name td)) toks).
Proof.
  unfold parse_type_directive. eapply gives_bind, gives_mono; [apply wd_identifier|]. intros name Hn.
  wgo; simpl; try exact I; try exact Hn.
  cbv beta in *. subst. cbn [gives]. destruct (_ =?s _); exact Hn.
Qed.
Lemma wd_incl f : gives T (incl_of X E d f) (fun inc => exists m, read_file X E d f = Ok m /\ inc = m_schema m).
Proof. unfold incl_of, lift. destruct (read_file X E d f); simpl; try exact I. eexists. split; reflexivity. Qed.
Lemma wd_directive n sch c kw : In (word kw) toks -> in_segments X E d toks (sc_types sch) ->
  gives T (directive X n (incl_of X E d) sch c kw) (fun sch' => in_segments X E d toks (sc_types sch')).
Proof.
  intros K S. unfold directive.
  destruct (kw =?s "name"); [wgo; exact S|]. destruct (kw =?s "namespace"); [wgo; exact S|].
  destruct (kw =?s "version"); [wgo; exact S|].
  destruct (kw =?s "type") eqn:KT.
  { apply seqb_eq in KT. subst kw. eapply gives_bind, gives_mono; [apply wd_type|]. intros td H. simpl.
    apply segments_add; [exact S|]. left. eauto. }
  destruct (kw =?s "example"); [wgo; exact S|]. destruct (kw =?s "base"); [wgo; exact S|].
  destruct (kw =?s "operation"); [wgo; exact S|]. destruct (kw =?s "http"); [wgo; exact S|].
  destruct (kw =?s "include") eqn:KI.
  { apply seqb_eq in KI. subst kw. eapply gives_bind, gives_mono; [apply wd_string|]. intros f Hf.
    eapply gives_bind, gives_mono; [apply wd_incl|]. intros inc (m & RF & ->).
    assert (forall st sch' st', run (include_into (merge_sc_comment sch c) (m_schema m) f) st = Ok (sch', st') ->
      in_segments X E d toks (sc_types sch')) as G.
    { intros st sch' st' R. apply include_extends in R as ((ts & hs & os & HT & F & _) & _). rewrite HT.
      apply segments_add; [exact S|]. right. exists f, (m_schema m). unfold reads. eauto 8. }
    revert G. unfold include_into. destruct (new_model _); simpl; try (intros; exact I). destruct (forallb _ _); simpl; try (intros; exact I).
    intros G. apply (G (start []) _ (start []) eq_refl). }
  destruct (has_prefix "x_" kw); wgo; exact S.
Qed.
Lemma wd_read_schema n path : gives T (read_schema X E n (incl_of X E d) path) (fun sch => in_segments X E d toks (sc_types sch)).
Proof.
  unfold read_schema. apply (gives_loop T (fun s : schema * string => in_segments X E d toks (sc_types (fst s)))).
  - intros (s & c) Is. simpl in Is. simpl. split; [|exact Is]. intros t Ht.
    destruct t as [ty tx]. destruct ty; simpl; try exact I; try exact Is.
    eapply gives_bind, gives_mono; [apply wd_directive; [exact Ht|exact Is]|]. intros s' H. exact H.
  - apply segments_nil.
Qed.
End W.
Lemma read_string_types X E d toks m : read_string X E d toks = Ok m -> in_segments X E d toks (sc_types (m_schema m)).
Proof.
  unfold read_string, read_tokens. change (fun f => m <~ lift (read_file X E d f) ;; Ret (m_schema m)) with (incl_of X E d).
  destruct (run _ _) as [[sch st]|e| |] eqn:R; try discriminate; [|destruct e; discriminate].
  destruct (new_model sch) as [m'|e| |] eqn:M; try discriminate. injection 1 as <-.
  assert (m_schema m' = sch) as ->.
  { unfold new_model in M. apply rbind_Ok in M as (ti & _ & M). apply rbind_Ok in M as (hi & _ & M). injection M as <-. reflexivity. }
  apply (gives_run (fun t => In t toks) _ _ (fun s => in_segments X E d toks (sc_types s)) _ _ (start_all (fun t => In t toks) toks (proj2 (Forall_forall _ _) (fun t H => H)))
    (wd_read_schema X E d toks _ _) R).
Qed.
