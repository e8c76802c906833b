(** Reading the text of a whole schema. *)
From Verif Require Import GoStr Outcome Value Schema Scalars Time Misc MiscFacts Model ModelFacts Scan ScanFacts Acts ParserValidate PVFacts Parser
  SpecModel SpecMisc SpecPV SpecParser SpecText SpecOptions LiteralFacts OptionFacts PositionFacts InlineFacts ReadFacts FileFacts Yields Unparser SpecUnparse
  UnparseFacts UnparseBlocks UnparseValues UnparseComments UnparseOps UnparseHttp.

Section D.
Variable X : ext.
Variable dec_text : decimal -> string.
Variable E : penv.
Variable incl : string -> prog schema.

Definition sbody (n : nat) : schema * string -> prog (schema * string + schema) :=
  fun '((sch, comment) : schema * string) => Get (fun t => match t with
    | None => Ret (inr sch)
    | Some tok =>
        match tk_type tok with
        | SYMBOL => sch' <~ directive X n incl sch comment (tk_text tok) ;; Ret (inl (sch', ""))
        | LINE_COMMENT => Ret (inl (sch, merge_comment comment (tk_text tok)))
        | SEMICOLON | NEWLINE => Ret (inl (sch, comment))
        | _ => Fail (PBad "directive")
        end
    end).
(** reading [l] from the state [st] ends with a schema for which [Q] holds *)
Definition reaches (st : schema * string) (l : list token) (Q : schema -> Prop) : Prop :=
  forall o, exists a, iters sbody st o l a None [] /\ Q a.
Lemma r_end sch c (Q : schema -> Prop) : Q sch -> reaches (sch, c) [] Q.
Proof. intros H o. exists sch. split; [|exact H]. apply it_stop. unfold sbody. apply y_get_eof. apply y_ret. Qed.
Lemma r_junk j : Forall junk j -> forall sch c l Q, reaches (sch, junk_comment c j) l Q -> reaches (sch, c) (j ++ l) Q.
Proof.
  induction 1 as [|t j Ht _ IH]; intros sch c l Q H o; [apply H|]. pose proof (junk_type _ Ht) as B. simpl.
  destruct (IH sch (match tk_type t with LINE_COMMENT => merge_comment c (tk_text t) | _ => c end) l Q H (Some t)) as (a & I & HQ).
  exists a. split; [|exact HQ]. eapply it_next; [|exact I]. unfold sbody. apply y_get; [exact B|]. destruct Ht as [Ht|Ht]; rewrite Ht; apply y_ret.
Qed.
Lemma r_directive kw sch c sch' l o1 l1 Q :
  yields (fun n => directive X n incl sch c kw) None l sch' o1 l1 -> reaches (sch', "") l1 Q ->
  reaches (sch, c) (mkTok SYMBOL kw :: l) Q.
Proof.
  intros Y H o. destruct (H o1) as (a & I & HQ). exists a. split; [|exact HQ]. eapply it_next; [|exact I].
  unfold sbody. yget. simpl tk_type. cbv iota. ybind; [apply y_weak_l, Y|]. apply y_ret.
Qed.
Lemma r_blank j sch l Q : no_comment j -> reaches (sch, "") l Q -> reaches (sch, "") (j ++ l) Q.
Proof. intros J H. apply r_junk; [apply no_comment_junk, J|]. rewrite no_comment_keeps by exact J. exact H. Qed.

(** ** Entries *)
Lemma block_junk c : Forall junk (tokens (u_block_comment c)).
Proof. unfold u_block_comment. destruct (c =?s ""); [constructor|apply comment_junk]. Qed.
(** the comment read before an entry *)
Definition seen (c : string) : string := junk_comment "" (tokens (u_block_comment c)).
Lemma seen_kept c : comment_kept c (seen c).
Proof. intros S. apply block_comment_read, S. Qed.
Lemma r_block sch c l Q : reaches (sch, seen c) l Q -> reaches (sch, "") (newline_tok :: tokens (u_block_comment c) ++ l) Q.
Proof.
  intros H. apply (r_junk (newline_tok :: tokens (u_block_comment c))); [constructor; [exact junk_newline|apply block_junk]|]. exact H.
Qed.
Definition entries {A} (com : A -> string) (pieces : A -> list piece) (l : list A) : list token :=
  flat_map (fun a => newline_tok :: tokens (u_block_comment (com a)) ++ tokens (pieces a)) l.
Lemma entries_cons {A} com pieces (a : A) l rest : entries com pieces (a :: l) ++ rest
  = newline_tok :: tokens (u_block_comment (com a)) ++ tokens (pieces a) ++ entries com pieces l ++ rest.
Proof. unfold entries. cbn [flat_map]. rewrite <- !app_assoc. cbn [app]. rewrite <- !app_assoc. reflexivity. Qed.

Lemma r_types l : Forall (writable_type X dec_text) l -> forall sch rest Q,
  (forall l', Forall2 same_type l l' -> reaches (set_types sch (sc_types sch ++ l'), "") rest Q) ->
  reaches (sch, "") (entries td_comment (u_typedef dec_text) l ++ rest) Q.
Proof.
  induction 1 as [|td l Ht _ IH]; intros sch rest Q K.
  - specialize (K [] ltac:(constructor)). rewrite app_nil_r in K. destruct sch. exact K.
  - rewrite entries_cons. apply r_block. rewrite typedef_toks. cbn [app].
    destruct (typedef_reads X dec_text td (seen (td_comment td)) (entries td_comment (u_typedef dec_text) l ++ rest) Ht) as (td' & lead & NL & B & Cm & T & Y).
    eapply r_directive.
    + unfold directive. cbn [String.eqb]. simpl (_ =?s _). cbv iota. ybind; [exact Y|]. apply y_ret.
    + apply r_blank; [exact NL|]. apply IH. intros l' HL. specialize (K (td' :: l')). cbn [sc_types set_types].
      assert (Forall2 same_type (td :: l) (td' :: l')) as HL'.
      { constructor; [|exact HL]. split; [exact B|]. split; [|exact T]. intros S. rewrite Cm, (seen_kept _ S). apply spaced_trim, S. }
      specialize (K HL'). unfold set_types in *. simpl in *. rewrite <- app_assoc. exact K.
Qed.
Lemma r_operations l : Forall writable_op l -> forall sch rest Q,
  (forall l', Forall2 same_op l l' -> reaches (set_operations sch (sc_operations sch ++ l'), "") rest Q) ->
  reaches (sch, "") (entries op_comment (u_operation dec_text) l ++ rest) Q.
Proof.
  induction 1 as [|op l Ht _ IH]; intros sch rest Q K.
  - specialize (K [] ltac:(constructor)). rewrite app_nil_r in K. destruct sch. exact K.
  - rewrite entries_cons. apply r_block. rewrite operation_toks by exact Ht. cbn [app].
    eapply r_directive.
    + unfold directive. simpl (_ =?s _). cbv iota. ybind; [apply (operation_reads X op _ _ Ht)|]. apply y_ret.
    + apply (r_blank [newline_tok]); [constructor; [reflexivity|constructor]|]. apply IH. intros l' HL.
      specialize (K (set_op_comment op (seen (op_comment op)) :: l')).
      assert (Forall2 same_op (op :: l) (set_op_comment op (seen (op_comment op)) :: l')) as HL'.
      { constructor; [|exact HL]. exists (seen (op_comment op)). split; [apply seen_kept|reflexivity]. }
      specialize (K HL'). unfold set_operations in *. simpl in *. rewrite <- app_assoc. exact K.
Qed.
Lemma r_http l : Forall (writable_http X dec_text) l -> forall sch rest Q,
  (forall l', Forall2 same_action l l' -> reaches (set_http sch (sc_http sch ++ l'), "") rest Q) ->
  reaches (sch, "") (entries h_comment (u_http dec_text) l ++ rest) Q.
Proof.
  induction 1 as [|h l Ht _ IH]; intros sch rest Q K.
  - specialize (K [] ltac:(constructor)). rewrite app_nil_r in K. destruct sch. exact K.
  - rewrite entries_cons. apply r_block. rewrite (http_toks X) by exact Ht. cbn [app].
    eapply r_directive.
    + unfold directive. simpl (_ =?s _). cbv iota. ybind; [apply (http_reads X dec_text h _ _ Ht)|]. apply y_ret.
    + apply IH. intros l' HL. set (h' := done_http h (seen (h_comment h))). specialize (K (h' :: l')).
      assert (Forall2 same_action (h :: l) (h' :: l')) as HL'.
      { constructor; [|exact HL]. exists (seen (h_comment h)). split; [apply seen_kept|apply (done_same X dec_text), Ht]. }
      specialize (K HL'). unfold set_http in *. simpl in *. rewrite <- app_assoc. exact K.
Qed.
Lemma r_examples l : Forall (writable_example X dec_text) l -> forall sch rest Q,
  (forall l', Forall2 same_example l l' -> reaches (set_examples sch (sc_examples sch ++ l'), "") rest Q) ->
  reaches (sch, "") (entries ex_comment (u_example dec_text) l ++ rest) Q.
Proof.
  induction 1 as [|e l Ht _ IH]; intros sch rest Q K.
  - specialize (K [] ltac:(constructor)). rewrite app_nil_r in K. destruct sch. exact K.
  - rewrite entries_cons. apply r_block. rewrite example_toks by apply Ht. cbn [app].
    eapply r_directive.
    + unfold directive. simpl (_ =?s _). cbv iota. ybind; [apply (example_reads X dec_text e _ _ Ht)|]. apply y_ret.
    + apply (r_blank [newline_tok; newline_tok]); [repeat (constructor; [reflexivity|]); constructor|]. apply IH. intros l' HL.
      set (e' := set_ex e (seen (ex_comment e)) (norm (ex_example e))). specialize (K (e' :: l')).
      assert (Forall2 same_example (e :: l) (e' :: l')) as HL'.
      { constructor; [|exact HL]. exists (seen (ex_comment e)), (norm (ex_example e)). split; [apply seen_kept|].
        split; [apply (norm_same X dec_text); apply Ht|reflexivity]. }
      specialize (K HL'). unfold set_examples in *. simpl in *. rewrite <- app_assoc. exact K.
Qed.

(** ** The header *)
Lemma y_text s rest : yields (fun _ => expect_text) None (mkTok SYMBOL s :: rest) s (Some (mkTok SYMBOL s)) rest.
Proof. unfold expect_text. yget. apply y_ret. Qed.
Lemma y_namespace l rest : l <> [] -> starts_no DOT rest ->
  yields (fun n => parse_namespace n) None (tokens (join_pieces [P DOT] (map (fun w => [W w]) l)) ++ rest) (join "." l) None rest.
Proof.
  intros N S. destruct l as [|w l]; [contradiction|]. unfold parse_namespace.
  assert (tokens (join_pieces [P DOT] (map (fun w => [W w]) (w :: l))) ++ rest
    = mkTok SYMBOL w :: flat_map (fun x => [mkTok DOT "."; mkTok SYMBOL x]) l ++ rest) as ->.
  { clear. revert w. induction l as [|x l IH]; intros w; [reflexivity|].
    change (join_pieces [P DOT] (map (fun w => [W w]) (w :: x :: l))) with ([W w] ++ [P DOT] ++ join_pieces [P DOT] (map (fun w => [W w]) (x :: l))).
    rewrite !tokens_app, <- !app_assoc, IH. reflexivity. }
  ybind; [apply y_text|]. apply y_weak_l. apply (y_loop (fun _ ns => _)).
  enough (forall ns o, iters (fun (_ : nat) ns => Get (fun t => match t with
    | None => Ret (inr ns)
    | Some tok =>
        if is_type DOT tok then txt <~ expect_text ;; Ret (inl (ns +++ "." +++ txt))
        else Unget (Ret (inr ns))
    end)) ns o (flat_map (fun x => [mkTok DOT "."; mkTok SYMBOL x]) l ++ rest) (fold_left (fun a x => a +++ "." +++ x) l ns) None rest) as G.
  { assert (fold_left (fun a x => a +++ "." +++ x) l w = join "." (w :: l)) as <-; [|apply G].
    clear. assert (forall a w, fold_left (fun a x => a +++ "." +++ x) l (a +++ w) = a +++ join "." (w :: l)) as H.
    { induction l as [|x l IH]; intros a w0; [reflexivity|]. cbn [fold_left]. 
      replace ((a +++ w0) +++ "." +++ x) with ((a +++ w0 +++ ".") +++ x) by (rewrite !append_assoc; reflexivity).
      rewrite IH. change (join "." (w0 :: x :: l)) with (w0 +++ "." +++ join "." (x :: l)). rewrite !append_assoc. reflexivity. }
    apply (H "" w). }
  clear N w. induction l as [|x l IH]; intros ns o.
  - apply it_stop. destruct S as (t & r & -> & B & T). simpl. apply y_get; [exact B|]. cbv beta iota. apply is_type_neq in T. rewrite T.
    apply y_unget; [exact B|]. apply y_ret.
  - cbn [flat_map app]. eapply it_next; [|apply IH]. yget. change (is_type DOT (mkTok DOT ".")) with true. cbv iota.
    apply y_weak_l. ybind; [apply y_text|]. apply y_ret.
Qed.

Definition u_head (s : schema) : list piece :=
  (if sc_namespace s =?s "" then [] else [W "namespace"; Sp " "] ++ u_dotted (sc_namespace s) ++ [NL])
  ++ (if sc_name s =?s "" then [] else [W "name"; Sp " "; W (sc_name s); NL])
  ++ (if sc_base s =?s "" then [] else [W "base"; Sp " "; Q (sc_base s); NL])
  ++ (if sc_version s =?s "" then [] else [W "version"; Sp " "; R (sc_version s); NL])
  ++ u_annotations (sc_annos s).
Lemma r_newline sch l Q : reaches (sch, "") l Q -> reaches (sch, "") (newline_tok :: l) Q.
Proof. intros H. apply (r_blank [newline_tok]); [constructor; [reflexivity|constructor]|exact H]. Qed.
Lemma dotted_not_empty s : dotted s -> s <> "".
Proof. intros H ->. inversion H as [|x l (c & r & Hx & _) _]; subst. discriminate. Qed.
Lemma merge_trim_nil c : merge_comment (trim_space c) "" = trim_space c.
Proof. rewrite merge_right_id. apply trim_idem. Qed.
Definition header (ver name ns version comment base : string) (a : annos) : schema :=
  mkSchema ver name ns version comment [] [] [] [] base a.
Lemma r_annos a : forall done ver name ns version c base rest Q,
  NoDup (map fst (done ++ a)) -> (forall k v, In (k, v) a -> identifier k /\ has_prefix "x_" k = true /\ plain v) ->
  reaches (header ver name ns version (trim_space c) base (done ++ a), "") rest Q ->
  reaches (header ver name ns version (trim_space c) base done, "")
    (tokens (flat_map (fun kv => if snd kv =?s "" then [W (fst kv); NL] else [W (fst kv); Sp " "; Unparser.Q (snd kv); NL]) a) ++ rest) Q.
Proof.
  induction a as [|(k & v) a IH]; intros done ver name ns version c base rest Q N HA H.
  - simpl. rewrite app_nil_r in H. exact H.
  - destruct (HA k v (or_introl eq_refl)) as (Hk & Hx & Hp).
    assert (reaches (header ver name ns version (trim_space c) base (done ++ [(k, v)]), "")
      (tokens (flat_map (fun kv => if snd kv =?s "" then [W (fst kv); NL] else [W (fst kv); Sp " "; Unparser.Q (snd kv); NL]) a) ++ rest) Q) as G.
    { apply IH.
      - rewrite <- app_assoc. exact N.
      - intros k' v' Hin. apply HA. right. exact Hin.
      - rewrite <- app_assoc. exact H. }
    assert (forall l, yields (fun _ => parse_string_to_eol) None
      (tokens (if v =?s "" then [NL] else [Sp " "; Unparser.Q v; NL]) ++ l) (v, "") (Some newline_tok) l) as Y.
    { intros l. unfold parse_string_to_eol. destruct (v =?s "") eqn:Ev.
      - apply seqb_eq in Ev. subst v. cbn. yget. cbn. apply y_ret.
      - cbn [tokens flat_map piece_tokens app]. rewrite plain_escape by exact Hp. yget. cbn. yget. cbn. apply y_ret. }
    cbn [flat_map]. rewrite tokens_app, <- app_assoc. cbn [fst snd].
    replace (tokens (if v =?s "" then [W k; NL] else [W k; Sp " "; Unparser.Q v; NL]))
      with (mkTok SYMBOL k :: tokens (if v =?s "" then [NL] else [Sp " "; Unparser.Q v; NL])) by (destruct (v =?s ""); reflexivity).
    cbn [app]. eapply r_directive; [|exact G]. unfold directive.
    assert (forall w, has_prefix "x_" w = false -> (k =?s w) = false) as NK.
    { intros w Hw. apply seqb_neq. intros ->. congruence. }
    rewrite !NK by reflexivity. rewrite Hx. ybind; [apply Y|]. cbv beta iota zeta. apply y_ret'.
    unfold header, merge_sc_comment, set_annos, set_comment. cbn.
    rewrite !merge_trim_nil. rewrite assoc_set_new; [reflexivity|]. unfold keys.
    rewrite map_app in N. simpl in N. apply NoDup_remove_2 in N. rewrite in_app_iff in N. tauto.
Qed.
Lemma merge_first c : merge_comment "" c = trim_space c.
Proof. apply merge_left_id. Qed.
Lemma r_header s path rest Q : writable_schema X dec_text s ->
  reaches (header (e_version E) (sc_name s) (if sc_namespace s =?s "" then e_namespace E else sc_namespace s) (sc_version s)
    (trim_space (seen (sc_comment s))) (sc_base s) (sc_annos s), "") rest Q ->
  reaches (empty_schema E path, "") (tokens (u_block_comment (sc_comment s) ++ u_head s) ++ rest) Q.
Proof.
  intros (HN & HS & HB & HV & (HA1 & HA2) & _) H. rewrite tokens_app, <- app_assoc.
  apply r_junk; [apply block_junk|]. fold (seen (sc_comment s)). set (c := seen (sc_comment s)) in *. clearbody c.
  unfold u_head. rewrite !tokens_app, <- !app_assoc.
  set (nm := if e_name E =?s "" then e_base_name E path else e_name E).
  (* annotations *)
  assert (reaches (header (e_version E) (sc_name s) (if sc_namespace s =?s "" then e_namespace E else sc_namespace s) (sc_version s)
    (trim_space c) (sc_base s) [], "") (tokens (u_annotations (sc_annos s)) ++ rest) Q) as H1.
  { unfold u_annotations. destruct (sc_annos s) as [|kv a] eqn:Ea; [exact H|]. rewrite <- Ea in *. rewrite tokens_cons, <- app_assoc.
    apply r_newline. apply r_annos; [exact HA1|exact HA2|exact H]. }
  clear H. set (T4 := tokens (u_annotations (sc_annos s)) ++ rest) in *.
  (* version *)
  assert (reaches (header (e_version E) (sc_name s) (if sc_namespace s =?s "" then e_namespace E else sc_namespace s) ""
    (trim_space c) (sc_base s) [], "") (tokens (if sc_version s =?s "" then [] else [W "version"; Sp " "; R (sc_version s); NL]) ++ T4) Q) as H2.
  { destruct (sc_version s =?s "") eqn:Ev; [apply seqb_eq in Ev; rewrite Ev in H1; exact H1|].
    cbn [tokens flat_map piece_tokens app]. eapply r_directive; [|apply r_newline, H1].
    unfold directive. simpl (_ =?s _). cbv iota. ybind; [unfold parse_version; yget; simpl tk_type; cbv iota; apply y_ret|]. apply y_ret'.
    unfold set_version, merge_sc_comment, set_comment, header. simpl. rewrite merge_trim_nil. reflexivity. }
  clear H1. set (T3 := tokens (if sc_version s =?s "" then _ else _) ++ T4) in *.
  (* base *)
  assert (reaches (header (e_version E) (sc_name s) (if sc_namespace s =?s "" then e_namespace E else sc_namespace s) ""
    (trim_space c) "" [], "") (tokens (if sc_base s =?s "" then [] else [W "base"; Sp " "; Unparser.Q (sc_base s); NL]) ++ T3) Q) as H3.
  { destruct (sc_base s =?s "") eqn:Eb; [apply seqb_eq in Eb; rewrite Eb in H2; exact H2|].
    destruct HB as [HB|(HB1 & HB2)]; [rewrite HB in Eb; discriminate|].
    cbn [tokens flat_map piece_tokens app]. rewrite plain_escape by exact HB1. eapply r_directive; [|apply r_newline, H2].
    unfold directive. simpl (_ =?s _). cbv iota. ybind.
    { unfold parse_base. ybind; [unfold expect_string; yget; simpl (is_type _ _); cbv iota; apply y_ret|]. simpl tk_text. rewrite HB2, andb_false_r. apply y_ret. }
    apply y_ret'. unfold set_base, merge_sc_comment, set_comment, header. simpl. rewrite merge_trim_nil. reflexivity. }
  clear H2. set (T2 := tokens (if sc_base s =?s "" then _ else _) ++ T3) in *.
  (* name, with the comment still to come or not *)
  assert (forall nm ns c0 c1, merge_comment c0 c1 = trim_space c -> ns = (if sc_namespace s =?s "" then e_namespace E else sc_namespace s) ->
    reaches (header (e_version E) nm ns "" c0 "" [], c1)
      (tokens (if sc_name s =?s "" then [] else [W "name"; Sp " "; W (sc_name s); NL]) ++ T2) Q) as H4.
  { intros nm0 ns c0 c1 Ec ->. replace (sc_name s =?s "") with false by (destruct HN as (ch & r & -> & _); reflexivity).
    cbn [tokens flat_map piece_tokens app]. eapply r_directive; [|apply r_newline, H3].
    unfold directive. simpl (_ =?s _). cbv iota. ybind; [apply y_text|]. apply y_ret'.
    unfold set_name, merge_sc_comment, set_comment, header. simpl. rewrite Ec. reflexivity. }
  destruct (sc_namespace s =?s "") eqn:Es.
  - apply H4; [apply merge_first|reflexivity].
  - destruct HS as [HS|HS]; [rewrite HS in Es; discriminate|]. rewrite !tokens_app, <- !app_assoc.
    simpl (tokens [W "namespace"; _]). cbn [app]. simpl (tokens [NL]). cbn [app]. eapply r_directive.
    + unfold directive. simpl (_ =?s _). cbv iota. ybind.
      { unfold u_dotted. apply y_namespace; [apply split_nonempty|]. eexists _, _. split; [reflexivity|]. split; [reflexivity|discriminate]. }
      apply y_ret.
    + rewrite join_split. unfold set_namespace, merge_sc_comment, set_comment, empty_schema. simpl. apply r_newline.
      apply (H4 nm (sc_namespace s) (merge_comment "" c) ""); [|reflexivity].
      rewrite merge_first. apply merge_trim_nil.
Qed.

Lemma u_schema_toks s : tokens (u_schema dec_text s)
  = tokens (u_block_comment (sc_comment s) ++ u_head s) ++ entries td_comment (u_typedef dec_text) (sc_types s)
    ++ entries op_comment (u_operation dec_text) (sc_operations s) ++ entries h_comment (u_http dec_text) (sc_http s)
    ++ entries ex_comment (u_example dec_text) (sc_examples s) ++ [].
Proof.
  unfold u_schema, u_head, entries. rewrite !tokens_app, !tokens_flat_map, <- !app_assoc. rewrite app_nil_r.
  repeat (f_equal; [apply flat_map_ext; intros; rewrite tokens_cons, tokens_app; reflexivity|]) || idtac.
  do 6 f_equal.
  f_equal; [apply flat_map_ext; intros; rewrite tokens_cons, tokens_app; reflexivity|].
  f_equal; [apply flat_map_ext; intros; rewrite tokens_cons, tokens_app; reflexivity|].
  f_equal; [apply flat_map_ext; intros; rewrite tokens_cons, tokens_app; reflexivity|].
  apply flat_map_ext; intros; rewrite tokens_cons, tokens_app; reflexivity.
Qed.
Lemma schema_reads s path : writable_schema X dec_text s ->
  exists s', same_schema (e_namespace E) (e_version E) s s'
    /\ yields (fun n => read_schema X E n incl path) None (tokens (u_schema dec_text s)) s' None [].
Proof.
  intros HW. pose proof HW as (_ & _ & _ & _ & _ & HT & HO & HH & HX).
  assert (reaches (empty_schema E path, "") (tokens (u_schema dec_text s)) (same_schema (e_namespace E) (e_version E) s)) as H.
  { rewrite u_schema_toks. apply r_header; [exact HW|]. apply r_types; [exact HT|]. intros l1 L1. apply r_operations; [exact HO|]. intros l2 L2.
    apply r_http; [exact HH|]. intros l3 L3. apply r_examples; [exact HX|]. intros l4 L4. apply r_end.
    unfold same_schema, header. simpl. repeat (split; [first [reflexivity|assumption]|]).
    split. { intros S. rewrite (seen_kept _ S). apply spaced_trim, S. }
    repeat (split; [first [reflexivity|assumption]|]). assumption. }
  destruct (H None) as (s' & I & S). exists s'. split; [exact S|]. apply (y_loop sbody), I.
Qed.
End D.

(** ** Files *)
Lemma schema_read_string X dec_text E d s : writable_schema X dec_text s ->
  exists s', same_schema (e_namespace E) (e_version E) s s'
    /\ read_string X E d (tokens (u_schema dec_text s))
       = match new_model s' with Ok m => Ok m | Err _ => Err PModel | Panic => Panic | OutOfFuel => OutOfFuel end.
Proof.
  intros HW. destruct (schema_reads X dec_text E (fun f => m <~ lift (read_file X E d f) ;; Ret (m_schema m)) s "" HW) as (s' & SS & Y).
  exists s'. split; [exact SS|]. apply y_run in Y as (N & Y).
  unfold read_string. rewrite (read_tokens_finish _ _ _ _ _ (N + S (S (length (tokens (u_schema dec_text s)))))).
  - destruct (Y (N + S (S (length (tokens (u_schema dec_text s))))) ltac:(lia)) as (st' & -> & _). reflexivity.
  - lia.
  - intros f st. apply lift_ends, outcome_any.
Qed.
Lemma map_Forall2 {A B} (R : A -> A -> Prop) (f : A -> B) l l' : (forall x y, R x y -> f y = f x) -> Forall2 R l l' -> map f l' = map f l.
Proof. intros H. induction 1 as [|x y l l' Hxy _ IH]; [reflexivity|]. simpl. rewrite (H _ _ Hxy), IH. reflexivity. Qed.
Lemma same_type_name td td' : same_type td td' -> td_name td' = td_name td.
Proof. intros (H & _). apply (f_equal td_name) in H. exact H. Qed.
Lemma same_free ns ver s s' : same_schema ns ver s s' -> collision_free s -> collision_free s'.
Proof.
  intros (_ & _ & _ & _ & _ & _ & _ & HT & _ & HH & _) (C1 & C2 & C3).
  pose proof (map_Forall2 _ td_name _ _ same_type_name HT) as E1.
  assert (map h_name (sc_http s') = map h_name (sc_http s)) as E2.
  { eapply map_Forall2; [|exact HH]. intros h h' (c & _ & ins & x & x' & _ & _ & _ & ->). reflexivity. }
  split; [rewrite E1; exact C1|]. split; [|rewrite E2; exact C3].
  intros td Hin. apply (in_map td_name) in Hin. rewrite E1 in Hin. apply in_map_iff in Hin as (td0 & <- & Hin). apply C2, Hin.
Qed.
Lemma decompiled_reads X dec_text E d s : writable_schema X dec_text s -> collision_free s ->
  exists m, read_string X E d (tokens (u_schema dec_text s)) = Ok m /\ same_schema (e_namespace E) (e_version E) s (m_schema m).
Proof.
  intros HW C. destruct (schema_read_string X dec_text E d s HW) as (s' & S & R).
  pose proof (same_free _ _ _ _ S C) as C'. destruct (proj1 (new_model_iff s') C') as (m & Hm). rewrite Hm in R. exists m. split; [exact R|].
  apply new_model_inv in Hm as (-> & _). exact S.
Qed.

(** ** Exact documents *)
Lemma exact_same v : exact_value v -> forall v', same_value v v' -> v' = v.
Proof.
  induction v using value_ind'; intros HE v' HS; inversion HE as [|b0|s0|d0|l0 HF]; subst;
    inversion HS as [|b1|v1 s1 T|d1|l1 l2 F|l1 p l2 F G]; subst; try reflexivity;
    try (destruct T as [T|T]; [discriminate|]; congruence).
  f_equal. clear HE HS. revert l2 F. induction H as [|x l Hx _ IH]; intros l2 F; inversion F as [|x0 y l0 l1 Hxy F']; subst; [reflexivity|].
  inversion HF as [|x0 l3 Hx0 HF']; subst. f_equal; [apply (Hx Hx0 y Hxy)|]. apply IH; assumption.
Qed.
Lemma exact_types l : Forall exact_type l -> forall l', Forall2 same_type l l' -> l' = l.
Proof.
  induction 1 as [|td l (K & T & S) _ IH]; intros l' F; inversion F as [|x y l0 l1 (B & Cm & T') F']; subst; [reflexivity|].
  f_equal; [|apply IH, F']. specialize (T' T). specialize (Cm S). rewrite K in *.
  destruct y as [n c a ts], td as [n0 c0 a0 ts0]. unfold bare_type in B. simpl in *. congruence.
Qed.
Lemma exact_params l : Forall (fun p => exact_value (fd_default (ps_field p))) l -> forall l', Forall2 same_param l l' -> l' = l.
Proof.
  induction 1 as [|p l HE _ IH]; intros l' F; inversion F as [|x y l0 l1 (v & V & E) F']; subst; [reflexivity|].
  f_equal; [|apply IH, F']. apply (exact_same _ HE) in V. subst v. destruct p as [h q pa f]. destruct f; reflexivity.
Qed.
Lemma exact_https l : Forall exact_http l -> forall l', Forall2 same_action l l' -> l' = l.
Proof.
  induction 1 as [|h l (S & HI & HO) _ IH]; intros l' F; inversion F as [|x y l0 l1 (c & Cm & ins & x0 & x1 & FI & EX & (outs & FO & EX') & E) F']; subst; [reflexivity|].
  f_equal; [|apply IH, F']. rewrite (exact_params _ HI _ FI), (exact_params _ (HO _ EX) _ FO), (Cm S). destruct h. simpl in *. rewrite EX.
  destruct x0. reflexivity.
Qed.
Lemma exact_back X dec_text s s' ns ver : writable_schema X dec_text s -> exact_schema s -> same_schema ns ver s s' ->
  sc_sadl s = ver -> (sc_namespace s = "" -> ns = "") -> s' = s.
Proof.
  intros HW (E1 & E2 & E3 & E4 & E5) (S1 & S2 & S3 & S4 & S5 & S6 & S7 & S8 & S9 & S10 & S11) Hv Hn.
  assert (sc_namespace s' = sc_namespace s) as S3'.
  { rewrite S3. destruct (sc_namespace s =?s "") eqn:En; [|reflexivity]. apply seqb_eq in En. rewrite En. apply Hn, En. }
  apply (exact_types _ E2) in S8. apply (exact_https _ E4) in S10. specialize (S5 E1).
  assert (sc_operations s' = sc_operations s) as S9'.
  { clear - E3 S9. revert E3. induction S9 as [|op op' l l' (c & Cm & ->) _ IH]; intros E3; [reflexivity|]. inversion E3; subst.
    rewrite (Cm ltac:(assumption)). f_equal; [destruct op; reflexivity|apply IH; assumption]. }
  assert (sc_examples s' = sc_examples s) as S11'.
  { destruct HW as (_ & _ & _ & _ & _ & _ & _ & _ & HX). clear - E5 S11 HX. revert E5 HX.
    induction S11 as [|e e' l l' (c & v & Cm & V & ->) _ IH]; intros E5 HX; [reflexivity|].
    inversion E5 as [|x y (Hc & Hv) E5']; subst. inversion HX as [|x y (_ & _ & _ & A) HX']; subst.
    rewrite (Cm Hc), (exact_same _ Hv _ V). f_equal; [destruct e; simpl in *; rewrite A; reflexivity|apply IH; assumption]. }
  destruct s, s'. simpl in *. congruence.
Qed.
Lemma decompiled_exact X dec_text E d s : writable_schema X dec_text s -> exact_schema s -> sc_sadl s = e_version E ->
  (sc_namespace s = "" -> e_namespace E = "") ->
  read_string X E d (tokens (u_schema dec_text s))
  = match new_model s with Ok m => Ok m | Err _ => Err PModel | Panic => Panic | OutOfFuel => OutOfFuel end.
Proof.
  intros HW HE Hv Hn. destruct (schema_read_string X dec_text E d s HW) as (s' & S & R).
  rewrite (exact_back _ _ _ _ _ _ HW HE S Hv Hn) in R. exact R.
Qed.
