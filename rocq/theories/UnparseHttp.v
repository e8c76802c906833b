(** Reading the text of http actions. *)
From Verif Require Import GoStr Outcome Value Schema Scalars Time Misc MiscFacts Model Scan ScanFacts Acts ParserValidate PVFacts Parser
  SpecModel SpecMisc SpecPV SpecParser SpecText SpecOptions LiteralFacts OptionFacts PositionFacts Yields Unparser SpecUnparse
  UnparseFacts UnparseBlocks UnparseValues UnparseComments UnparseOps.

Lemma parse_int_narrow s z : parse_int 64 s = Some z -> (- 2 ^ 31 <= z < 2 ^ 31)%Z -> parse_int 32 s = Some z.
Proof.
  intros H B. change (2 ^ 31)%Z with 2147483648%Z in B.
  assert (forall x, (if ((- 2 ^ (64 - 1) <=? x)%Z && (x <? 2 ^ (64 - 1))%Z)%bool then Some x else None) = Some z ->
    (if ((- 2 ^ (32 - 1) <=? x)%Z && (x <? 2 ^ (32 - 1))%Z)%bool then Some x else None) = Some z) as K.
  { intros x Hx. destruct (_ && _) in Hx; [|discriminate]. injection Hx as ->. change (2 ^ (32 - 1))%Z with 2147483648%Z.
    change (- (2147483648))%Z with (-2147483648)%Z. destruct (Z.leb_spec (-2147483648) z), (Z.ltb_spec z 2147483648); try lia. reflexivity. }
  unfold parse_int in *. destruct s as [|[[] [] [] [] [] [] [] []] s]; try discriminate H;
    (match type of H with match ?u with _ => _ end = _ => destruct u; [|discriminate] end); apply K, H.
Qed.
Lemma parse_fmt32 z : int32 z -> parse_int 32 (fmt_d z) = Some z.
Proof.
  intros H. unfold int32 in H. apply parse_int_narrow.
  - apply parse_int64_iff, fmt_int64. change (2 ^ 63)%Z with 9223372036854775808%Z. lia.
  - change (2 ^ 31)%Z with 2147483648%Z. lia.
Qed.

(** ** The end of a block *)
Lemma y_block_more j c t rest : Forall junk j -> is_block t = false -> tk_type t = SYMBOL ->
  yields (fun n => is_block_done n c) None (j ++ t :: rest) (false, junk_comment c j) None (t :: rest).
Proof.
  intros J B T. unfold is_block_done. apply (y_loop (fun _ c => _)).
  enough (forall c o, iters (fun (_ : nat) c => Get (fun t => match t with
    | None => Ret (inr (false, c))
    | Some tok =>
        match tk_type tok with
        | CLOSE_BRACE => Ret (inr (true, c))
        | LINE_COMMENT => Ret (inl (merge_comment c (tk_text tok)))
        | NEWLINE => Ret (inl c)
        | _ => Unget (Ret (inr (false, c)))
        end
    end)) c o (j ++ t :: rest) (false, junk_comment c j) None (t :: rest)) as H by apply H.
  clear c. induction J as [|x j Hx J IH]; intros c o; simpl.
  - apply it_stop. apply y_get; [exact B|]. rewrite T. apply y_unget; [exact B|]. apply y_ret.
  - pose proof (junk_type _ Hx) as Bx. destruct Hx as [Hx|Hx].
    + eapply it_next; [apply y_get; [exact Bx|]; rewrite Hx; apply y_ret|]. unfold junk_comment in *. simpl. rewrite Hx. apply IH.
    + eapply it_next; [apply y_get; [exact Bx|]; rewrite Hx; apply y_ret|]. unfold junk_comment in *. simpl. rewrite Hx. apply IH.
Qed.
Lemma y_block_end j c rest : Forall junk j ->
  yields (fun n => is_block_done n c) None (j ++ close_tok :: rest) (true, junk_comment c j) (Some close_tok) rest.
Proof.
  intros J. unfold is_block_done. apply (y_loop (fun _ c => _)).
  enough (forall c o, iters (fun (_ : nat) c => Get (fun t => match t with
    | None => Ret (inr (false, c))
    | Some tok =>
        match tk_type tok with
        | CLOSE_BRACE => Ret (inr (true, c))
        | LINE_COMMENT => Ret (inl (merge_comment c (tk_text tok)))
        | NEWLINE => Ret (inl c)
        | _ => Unget (Ret (inr (false, c)))
        end
    end)) c o (j ++ close_tok :: rest) (true, junk_comment c j) (Some close_tok) rest) as H by apply H.
  clear c. induction J as [|x j Hx J IH]; intros c o; simpl.
  - apply it_stop. yget. apply y_ret.
  - pose proof (junk_type _ Hx) as Bx. destruct Hx as [Hx|Hx].
    + eapply it_next; [apply y_get; [exact Bx|]; rewrite Hx; apply y_ret|]. unfold junk_comment in *. simpl. rewrite Hx. apply IH.
    + eapply it_next; [apply y_get; [exact Bx|]; rewrite Hx; apply y_ret|]. unfold junk_comment in *. simpl. rewrite Hx. apply IH.
Qed.
Lemma no_comment_junk j : no_comment j -> Forall junk j.
Proof. apply Forall_impl. intros t H. left. exact H. Qed.
Lemma no_comment_keeps j : no_comment j -> forall c, junk_comment c j = c.
Proof. induction 1 as [|t j H _ IH]; intros c; [reflexivity|]. unfold junk_comment in *. simpl. rewrite H. apply IH. Qed.
Lemma spaced_trim c : spaced c -> trim_space c = c.
Proof. intros H. apply trimmed_trim, spaced_trimmed, H. Qed.

Section H.
Variable X : ext.
Variable dec_text : decimal -> string.
Notation writable_param := (writable_param X dec_text).
Notation writable_http := (writable_http X dec_text).
Notation u_param := (u_param dec_text).
Local Arguments str_mem : simpl never.

(** ** Parameters *)
Lemma unlimited_lims ts : unlimited ts -> lims dec_text ts = [] /\ wlims ts = [].
Proof.
  intros (H1 & H2 & H3 & H4 & H5 & H6). unfold lims, wlims, string_opts, string_wopts, number_opts, number_wopts, u_sizes.
  rewrite H1, H2, H3, H4, H5, H6. simpl. destruct (ts_type ts =?s "String"); [split; reflexivity|].
  destruct (str_mem (ts_type ts) numeric_types); [split; reflexivity|].
  destruct ((ts_type ts =?s "Array") || (ts_type ts =?s "Map")); split; reflexivity.
Qed.
Lemma param_type_spec ts : param_type X dec_text ts -> type_spec_of (te_of ts) = Ret ts.
Proof.
  intros (Wr & B & K & U). rewrite (type_spec_flat _ _ _ Wr B). f_equal.
  destruct (wlims_fold _ _ ts false [] Wr B) as (o & E & E1 & _). destruct (unlimited_lims ts U) as (_ & L). rewrite L in E. simpl in E.
  subst o. rewrite K in E1. rewrite <- E1 at 2. reflexivity.
Qed.
Lemma param_type_text ts indent : param_type X dec_text ts -> u_spec dec_text ts [] indent = head ts.
Proof.
  intros (_ & B & _ & U). rewrite u_spec_flat by exact B. destruct (unlimited_lims ts U) as (-> & _). simpl. apply app_nil_r.
Qed.
Definition p_opts (p : paramspec) : list (list piece) :=
  let f := ps_field p in
  (if fd_required f then [[W "required"]] else [])
    ++ (match fd_default f with VNil => [] | d => [W "default" :: P EQUALS :: u_json dec_text d] end)
    ++ (if ps_header p =?s "" then [] else [[W "header"; P EQUALS; Q (ps_header p)]]).
Definition p_wopts (p : paramspec) : list wopt :=
  let f := ps_field p in
  (if fd_required f then [ORequired] else [])
    ++ (match fd_default f with VNil => [] | d => [ODefault (norm d)] end)
    ++ (if ps_header p =?s "" then [] else [OHeader (ps_header p)]).
Lemma p_items p : writable_value X dec_text (fd_default (ps_field p)) -> plain (ps_header p) ->
  Forall2 (fun ps w => opt_text X ["header"; "default"; "required"] (tokens ps) w) (p_opts p) (p_wopts p).
Proof.
  intros D H. unfold p_opts, p_wopts. apply Forall2_app; [|apply Forall2_app].
  - destruct (fd_required (ps_field p)); constructor; [|constructor]. apply ot_required. split; [reflexivity|simpl; auto].
  - pose proof (json_literal X dec_text _ D) as L. destruct (fd_default (ps_field p)) eqn:E; try (constructor; fail);
      (constructor; [|constructor]; rewrite !tokens_cons; simpl (piece_tokens _); simpl ([_] ++ _);
       apply ot_default; [split; [reflexivity|simpl; auto]|reflexivity|exact L]).
  - destruct (ps_header p =?s ""); constructor; [|constructor]. simpl. rewrite plain_escape by exact H.
    apply ot_header; [split; [reflexivity|simpl; auto]|reflexivity].
Qed.
Lemma p_fold p : let o := fold_left (fun o w => record w o) (p_wopts p) no_options in
  o_header o = ps_header p /\ o_default o = norm (fd_default (ps_field p)) /\ o_annos o = [].
Proof.
  unfold p_wopts. destruct (ps_header p =?s "") eqn:E; [apply seqb_eq in E; rewrite E|];
  destruct (fd_required (ps_field p)), (fd_default (ps_field p)); repeat split; reflexivity.
Qed.
(** what is read, before parameters are made required *)
Definition raw (p : paramspec) : paramspec :=
  let f := ps_field p in
  mkParam (ps_header p) (ps_query p) (ps_path p)
    (mkField (fd_name f) (fd_comment f) (fd_annos f) false (norm (fd_default f)) (fd_spec f)).
Lemma source_of path p f : recorded_source path p -> fd_name f = fd_name (ps_field p) ->
  source_param (parameter_source path (fd_name f) (ps_header p)) f = mkParam (ps_header p) (ps_query p) (ps_path p) f.
Proof.
  intros R ->. destruct p as [h q pa g]. simpl in *. unfold recorded_source in R. simpl in R.
  destruct R as [(H & -> & ->)|[(-> & -> & -> & H)|[(-> & -> & H & H1)|(-> & -> & -> & H & H1)]]].
  - rewrite (proj2 (parameter_source_iff path (fd_name g) h (FromHeader h))); [reflexivity|]. split; auto.
  - rewrite (proj2 (parameter_source_iff path (fd_name g) "" FromPath)); [reflexivity|]. split; auto.
  - rewrite (proj2 (parameter_source_iff path (fd_name g) "" (FromQuery q))); [reflexivity|]. repeat split; auto.
  - rewrite (proj2 (parameter_source_iff path (fd_name g) "" FromBody)); [reflexivity|]. repeat split; auto.
Qed.
Definition p_long (p : paramspec) : bool :=
  let f := ps_field p in
  (100 <? slen (fd_comment f) + slen (fd_name f) + slen (text (u_spec dec_text (fd_spec f) [] indent_amount)) + slen (text (u_options (p_opts p))))%Z.
Definition p_pre (p : paramspec) : list token :=
  if negb (fd_comment (ps_field p) =?s "") && p_long p then tokens (u_comment3 (fd_comment (ps_field p))) else [].
Definition p_com (p : paramspec) : option string :=
  if p_long p || (fd_comment (ps_field p) =?s "") then None else Some (" " +++ fd_comment (ps_field p)).
Definition p_rest (p : paramspec) : list token :=
  tokens (head (fd_spec (ps_field p))) ++ tokens (u_options (p_opts p)) ++ com_toks (p_com p) ++ [newline_tok].
Lemma param_toks path req p : writable_param path req p ->
  tokens (u_param p) = p_pre p ++ mkTok SYMBOL (fd_name (ps_field p)) :: p_rest p.
Proof.
  intros (_ & _ & _ & _ & _ & T & _). unfold u_param, p_pre, p_rest, p_com. fold (p_opts p). fold (p_long p).
  rewrite param_type_text by exact T. rewrite !tokens_app. f_equal.
  { destruct (negb _ && _); reflexivity. }
  simpl (tokens [_; _]). simpl ([_] ++ _). f_equal. f_equal. f_equal. simpl (tokens [NL]). f_equal.
  unfold u_trailing. destruct (p_long p); [reflexivity|]. simpl. destruct (fd_comment (ps_field p) =?s ""); reflexivity.
Qed.
Lemma p_pre_junk p : Forall junk (p_pre p).
Proof. unfold p_pre. destruct (_ && _); [apply comment3_junk|constructor]. Qed.
Lemma p_comment p c1 : spaced (fd_comment (ps_field p)) -> c1 = junk_comment "" (p_pre p) ->
  eos_comment (merge_comment c1 "") (p_com p) = fd_comment (ps_field p).
Proof.
  intros S ->. unfold p_pre, p_com. destruct (fd_comment (ps_field p) =?s "") eqn:E.
  - apply seqb_eq in E. rewrite E. rewrite orb_true_r. reflexivity.
  - apply seqb_neq in E. destruct (p_long p); cbn [orb negb andb eos_comment].
    + rewrite u_comment3_read by assumption. rewrite merge_right_id. apply spaced_trim, S.
    + change (junk_comment "" []) with "". change (merge_comment "" "") with "". rewrite merge_left_id, trim_blank. apply spaced_trim, S.
Qed.
Lemma y_param path req p c1 rest : writable_param path req p -> c1 = junk_comment "" (p_pre p) ->
  yields (fun n => parse_http_param X n path (fd_name (ps_field p)) c1) None (p_rest p ++ rest) (raw p) (Some newline_tok) rest.
Proof.
  intros (_ & _ & A & S & D & T & H & R & _) Hc. unfold parse_http_param, p_rest. rewrite <- !app_assoc.
  eapply (y_bind _ _ _ _ (fd_spec (ps_field p), no_options, merge_comment c1 "") None).
  - unfold parse_type_spec. ybind.
    { apply elems_flat; [apply T|]. apply starts_options; [discriminate|]. apply starts_eos; discriminate. }
    rewrite param_type_spec by exact T. ybind; [apply y_ret|]. apply y_ret'. reflexivity.
  - cbv beta iota. ybind; [apply y_options; [apply p_items; assumption|apply starts_eos; discriminate]|].
    destruct (p_fold p) as (-> & -> & ->). ybind; [apply y_eos|]. apply y_ret'.
    rewrite (p_comment p c1 S Hc). rewrite <- A.
    refine (source_of path p (mkField (fd_name (ps_field p)) (fd_comment (ps_field p)) (fd_annos (ps_field p)) false (norm (fd_default (ps_field p))) (fd_spec (ps_field p))) R eq_refl).
Qed.

(** ** The body of an action *)
Definition http_body (n : nat) (h : httpdef) : prog (httpdef + httpdef) :=
  '(done, c1) <~ is_block_done n "" ;;
  if done : bool then Ret (inr h)
  else h' <~ parse_http_spec X n h c1 ;; Ret (inl h').
Definition set_inputs (h : httpdef) l := mkHttp (h_name h) (h_resource h) (h_comment h) (h_annos h) (h_method h) (h_path h) l (h_expected h) (h_exceptions h).
Definition set_exceptions (h : httpdef) l := mkHttp (h_name h) (h_resource h) (h_comment h) (h_annos h) (h_method h) (h_path h) (h_inputs h) (h_expected h) l.
Definition param_line (p : paramspec) : list token := p_pre p ++ mkTok SYMBOL (fd_name (ps_field p)) :: p_rest p.
Lemma not_keyword s : ~ In s ["expect"; "except"] -> (s =?s "expect") = false /\ (s =?s "except") = false.
Proof.
  intros H. split; apply seqb_neq; intros ->; apply H; simpl; auto.
Qed.
Lemma h_inputs_read l req : forall h o a o' l' rest, Forall (fun p => writable_param (h_path h) (req p) p) l ->
  (forall o j, no_comment j -> iters http_body (set_inputs h (h_inputs h ++ map raw l)) o (j ++ rest) a o' l') ->
  forall j, no_comment j -> iters http_body h o (j ++ flat_map param_line l ++ rest) a o' l'.
Proof.
  induction l as [|p l IH]; intros h o a o' l' rest H K j J.
  - simpl. simpl in K. rewrite app_nil_r in K. destruct h. apply K. exact J.
  - inversion H as [|p0 l0 Hp HF]; subst. simpl. unfold param_line at 1. rewrite <- !app_assoc. simpl.
    eapply it_next.
    { unfold http_body. rewrite app_assoc. ybind.
      { apply y_weak_l. apply y_block_more; [apply junk_app; [apply no_comment_junk, J|apply p_pre_junk]|reflexivity|reflexivity]. }
      rewrite junk_comment_app, (no_comment_keeps j J).
      ybind; [|apply y_ret]. unfold parse_http_spec. ybind; [apply y_identifier|].
      destruct Hp as (Hn & Hk & Hp). destruct (not_keyword _ Hk) as (-> & ->). apply y_weak_l. ybind; [|apply y_ret].
      eapply y_param; [split; [exact Hn|split; [exact Hk|exact Hp]]|reflexivity]. }
    apply (IH (add_input h (raw p)) _ a o' l' rest HF) with (j := []); [|constructor].
    intros o1 j1 J1. specialize (K o1 j1 J1). unfold set_inputs, add_input in *. simpl. simpl in K. rewrite <- app_assoc. exact K.
Qed.
Lemma y_int32 z rest : int32 z ->
  yields (fun _ => expect_int 32) None (mkTok NUMBER (fmt_d z) :: rest) z (Some (mkTok NUMBER (fmt_d z))) rest.
Proof. intros H. unfold expect_int. yget. simpl (is_type _ _). simpl tk_text. rewrite parse_fmt32 by exact H. apply y_ret. Qed.
Lemma y_eos2 c rest : yields (fun n => end_of_statement n c) None (newline_tok :: rest) c (Some newline_tok) rest.
Proof. unfold end_of_statement. ybind; [apply (y_eos c None)|]. simpl. apply y_ret. Qed.
Lemma no_opts acc t rest : is_block t = false -> tk_type t <> OPEN_PAREN ->
  yields (fun n => parse_options X n acc) None (t :: rest) no_options None (t :: rest).
Proof.
  intros B T. unfold parse_options. apply y_get; [exact B|]. apply is_type_neq in T. rewrite T. apply y_unget; [exact B|]. apply y_ret.
Qed.
(** the outputs *)
Definition out_body (path : string) (c : string) (n : nat) (outs : list paramspec) : prog (list paramspec + list paramspec * string) :=
  '(done, c1) <~ is_block_done n "" ;;
  if done : bool then Ret (inr (outs, merge_comment c c1))
  else
    name <~ expect_identifier ;;
    if (name =?s "expect") || (name =?s "except") then fail_syntax
    else p <~ parse_http_param X n path name c1 ;; Ret (inl (outs ++ [p])).
Lemma outs_read path c l req rest : Forall (fun p => writable_param path (req p) p) l -> forall acc o j, no_comment j ->
  iters (out_body path c) acc o (j ++ flat_map param_line l ++ close_tok :: rest) (acc ++ map raw l, merge_comment c "") (Some close_tok) rest.
Proof.
  induction 1 as [|p l Hp _ IH]; intros acc o j J.
  - simpl. rewrite app_nil_r. apply it_stop. unfold out_body. ybind; [apply y_weak_l, y_block_end, no_comment_junk, J|].
    rewrite no_comment_keeps by exact J. apply y_ret.
  - simpl. unfold param_line at 1. rewrite <- !app_assoc. simpl. eapply it_next.
    { unfold out_body. rewrite app_assoc. ybind.
      { apply y_weak_l. apply y_block_more; [apply junk_app; [apply no_comment_junk, J|apply p_pre_junk]|reflexivity|reflexivity]. }
      rewrite junk_comment_app, (no_comment_keeps j J). ybind; [apply y_identifier|].
      destruct Hp as (Hn & Hk & Hp). destruct (not_keyword _ Hk) as (-> & ->). cbn [orb]. apply y_weak_l. ybind; [|apply y_ret].
      eapply y_param; [split; [exact Hn|split; [exact Hk|exact Hp]]|reflexivity]. }
    specialize (IH (acc ++ [raw p]) (Some newline_tok) [] ltac:(constructor)). rewrite <- app_assoc in IH. exact IH.
Qed.
Definition exp_toks (x : expectedspec) : list token :=
  newline_tok :: tokens (if xp_comment x =?s "" then [] else u_comment indent_amount (xp_comment x) 100 false)
  ++ mkTok SYMBOL "expect" :: mkTok NUMBER (fmt_d (xp_status x)) :: open_tok :: newline_tok
  :: flat_map param_line (xp_outputs x) ++ [close_tok; newline_tok].
Definition raw_exp (x : expectedspec) : expectedspec := mkExp (map raw (xp_outputs x)) (xp_status x) (xp_comment x) [].
Lemma comment_junk' indent c : Forall junk (tokens (if c =?s "" then [] else u_comment indent c 100 false)).
Proof. destruct (c =?s ""); [constructor|apply comment_junk]. Qed.
Lemma h_expected_read x req h o a o' l' rest : int32 (xp_status x) -> spaced (xp_comment x) -> h_expected h = None ->
  Forall (fun p => writable_param (h_path h) (req p) p) (xp_outputs x) ->
  (forall o j, no_comment j -> iters http_body (set_expected h (raw_exp x)) o (j ++ rest) a o' l') ->
  forall j, no_comment j -> iters http_body h o (j ++ exp_toks x ++ rest) a o' l'.
Proof.
  intros HI HS HN HF K j J. unfold exp_toks. simpl. rewrite <- !app_assoc. simpl. rewrite <- !app_assoc. simpl ([_; _] ++ rest).
  eapply it_next.
  { unfold http_body.
    set (L := mkTok SYMBOL "expect" :: _). change (newline_tok :: ?y ++ L) with ([newline_tok] ++ y ++ L). subst L.
    rewrite !app_assoc. rewrite <- (app_assoc _ (flat_map _ _)) || idtac. ybind.
    { apply y_weak_l. apply y_block_more; [|reflexivity|reflexivity].
      apply junk_app; [|apply comment_junk']. apply junk_app; [apply no_comment_junk, J|]. constructor; [exact junk_newline|constructor]. }
    rewrite !junk_comment_app, (no_comment_keeps j J). rewrite (no_comment_keeps [newline_tok]) by (constructor; [reflexivity|constructor]).
    rewrite u_comment_read by (try exact HS; lia).
    ybind; [|apply y_ret]. unfold parse_http_spec. ybind; [apply y_identifier|]. change ("expect" =?s "expect") with true. cbv iota.
    unfold parse_http_expected. rewrite HN. apply y_weak_l. ybind; [apply y_int32, HI|]. apply y_weak_l.
    ybind; [apply no_opts; [reflexivity|discriminate]|].
    eapply (y_bind _ _ _ _ (map raw (xp_outputs x), xp_comment x) None).
    { yget. simpl tk_type. cbv iota. ybind.
      { unfold parse_trailing_comment. yget. change (is_type LINE_COMMENT newline_tok) with false. cbv iota. yunget. apply y_ret. }
      apply (y_eq _ _ _ (map raw (xp_outputs x), merge_comment (xp_comment x) "")); [rewrite merge_right_id, (spaced_trim _ HS); reflexivity|]. eapply y_weak_r.
      apply (y_loop (out_body (h_path h) (xp_comment x))).
      apply (outs_read (h_path h) (xp_comment x) (xp_outputs x) req (newline_tok :: rest) HF [] None [newline_tok]). constructor; [reflexivity|constructor]. }
    cbv beta iota. ybind; [apply y_eos2|]. apply y_ret. }
  apply (K _ []). constructor.
Qed.
Definition exc_toks (e : exceptionspec) : list token :=
  tokens (if xc_comment e =?s "" then [] else u_comment indent_amount (xc_comment e) 100 false)
  ++ mkTok SYMBOL "except" :: (if (xc_status e =? 0)%Z then [] else [mkTok NUMBER (fmt_d (xc_status e))])
  ++ [mkTok SYMBOL (xc_type e); newline_tok].
Definition exc_ok (e : exceptionspec) : Prop :=
  identifier (xc_type e) /\ int32 (xc_status e) /\ xc_annos e = [] /\ spaced (xc_comment e).
Lemma h_exceptions_read l : Forall exc_ok l -> forall h o a o' l' rest, NoDup (map xc_type (h_exceptions h ++ l)) ->
  (forall o j, no_comment j -> iters http_body (set_exceptions h (h_exceptions h ++ l)) o (j ++ rest) a o' l') ->
  forall j, no_comment j -> iters http_body h o (j ++ flat_map exc_toks l ++ rest) a o' l'.
Proof.
  induction 1 as [|e l (E1 & E2 & E3 & E4) _ IH]; intros h o a o' l' rest N K j J.
  - simpl. simpl in K. rewrite app_nil_r in K. destruct h. apply K. exact J.
  - simpl. unfold exc_toks at 1. rewrite <- !app_assoc. simpl. rewrite <- !app_assoc. simpl. eapply it_next.
    { unfold http_body. rewrite app_assoc. ybind.
      { apply y_weak_l. apply y_block_more; [apply junk_app; [apply no_comment_junk, J|apply comment_junk']|reflexivity|reflexivity]. }
      rewrite junk_comment_app, (no_comment_keeps j J). rewrite u_comment_read by (try exact E4; lia).
      ybind; [|apply y_ret]. unfold parse_http_spec. ybind; [apply y_identifier|]. change ("except" =?s "expect") with false.
      change ("except" =?s "except") with true. cbv iota. unfold parse_http_exception. apply y_weak_l.
      eapply (y_bind _ _ _ _ (xc_status e) None (mkTok SYMBOL (xc_type e) :: newline_tok :: flat_map exc_toks l ++ rest)).
      { destruct (Z.eqb_spec (xc_status e) 0) as [-> |Z].
        - simpl. yget. simpl (is_type _ _). cbv iota. yunget. apply y_ret.
        - simpl. yget. simpl (is_type _ _). cbv iota. yunget. eapply y_weak_r. apply y_int32, E2. }
      ybind; [apply y_identifier|].
      assert (str_mem (xc_type e) (map xc_type (h_exceptions h)) = false) as ->.
      { destruct (str_mem (xc_type e) (map xc_type (h_exceptions h))) eqn:M; [|reflexivity]. apply str_mem_In in M. exfalso.
        rewrite map_app in N. simpl in N. apply NoDup_remove_2 in N. apply N. apply in_or_app. left. exact M. }
      apply y_weak_l. ybind; [apply no_opts; [reflexivity|discriminate]|]. ybind; [apply y_eos2|]. apply y_ret. }
    apply (IH (add_exception h (mkExc (xc_type e) (xc_status e) (xc_comment e) (o_annos no_options))) _ a o' l' rest) with (j := []); [| |constructor].
    + simpl. rewrite !map_app in *. simpl in *. rewrite <- app_assoc. exact N.
    + intros o1 j1 J1. specialize (K o1 j1 J1). unfold set_exceptions, add_exception in *. simpl. simpl in K. rewrite <- app_assoc. simpl.
      rewrite <- E3. destruct e. exact K.
Qed.

(** ** The action *)
Definition named_opt (h : httpdef) : bool := negb (h_name h =?s "") && negb (h_name h =?s action_name (h_method h) (h_resource h)).
Definition h_opts (h : httpdef) : list (list piece) :=
  (if named_opt h then [[W "operation"; P EQUALS; W (h_name h)]] else []) ++ map u_anno (h_annos h).
Definition h_wopts (h : httpdef) : list wopt := (if named_opt h then [OAction (h_name h)] else []) ++ map anno_opt (h_annos h).
Lemma h_items h : annos_ok (h_annos h) ->
  Forall2 (fun ps w => opt_text X ["action"; "operation"; "resource"] (tokens ps) w) (h_opts h) (h_wopts h).
Proof.
  intros A. unfold h_opts, h_wopts. apply Forall2_app; [|apply annos_items, A]. destruct (named_opt h); constructor; [|constructor].
  apply ot_action; [right; split; [reflexivity|simpl; auto]|reflexivity].
Qed.
Lemma h_fold h : annos_ok (h_annos h) -> let o := fold_left (fun o w => record w o) (h_wopts h) no_options in
  o_action o = (if named_opt h then h_name h else "") /\ o_resource o = "" /\ o_annos o = h_annos h.
Proof.
  intros (N & _). cbv zeta. unfold h_wopts. rewrite fold_left_app. rewrite fold_annos; destruct (named_opt h); simpl; try exact N; repeat split; reflexivity.
Qed.
Definition h_exp (h : httpdef) : expectedspec := match h_expected h with Some x => x | None => mkExp [] 200 "" [] end.
Definition h_toks (h : httpdef) : list token :=
  mkTok SYMBOL (h_method h) :: mkTok STRING (h_path h) :: tokens (u_options (h_opts h)) ++ open_tok :: newline_tok
  :: flat_map param_line (h_inputs h) ++ exp_toks (h_exp h)
  ++ (match h_exceptions h with [] => [] | l => [newline_tok] end ++ flat_map exc_toks (h_exceptions h)) ++ [close_tok; newline_tok].
Lemma http_toks h : writable_http h -> tokens (u_http dec_text h) = mkTok SYMBOL "http" :: h_toks h.
Proof.
  intros (_ & HP & _ & _ & HI & (x & HX & _ & _ & _ & HO) & _). unfold u_http, h_toks. fold (named_opt h). fold (h_opts h).
  assert (h_exp h = x) as Ex by (unfold h_exp; rewrite HX; reflexivity). rewrite Ex.
  assert (forall l req, Forall (fun p => writable_param (h_path h) (req p) p) l ->
    flat_map (fun p => tokens (Sp indent_amount :: u_param p)) l = flat_map param_line l) as F1.
  { intros l req H. apply flat_map_Forall. eapply Forall_impl; [|exact H]. intros p Hp. rewrite tokens_cons. simpl (piece_tokens _).
    simpl ([] ++ _). unfold param_line. apply (param_toks _ _ _ Hp). }
  assert (forall l req, Forall (fun p => writable_param (h_path h) (req p) p) l ->
    flat_map (fun p => tokens (Sp indent_amount :: Sp indent_amount :: u_param p)) l = flat_map param_line l) as F2.
  { intros l req H. apply flat_map_Forall. eapply Forall_impl; [|exact H]. intros p Hp. rewrite !tokens_cons. simpl (piece_tokens _).
    simpl ([] ++ _). unfold param_line. apply (param_toks _ _ _ Hp). }
  assert (tokens (u_expected dec_text (h_expected h)) = exp_toks x) as EX.
  { rewrite HX. unfold u_expected, exp_toks. cbv zeta. rewrite tokens_cons, !tokens_app, tokens_flat_map, (F2 _ _ HO). reflexivity. }
  rewrite !tokens_app, EX, tokens_flat_map, (F1 _ _ HI).
  assert (tokens (match h_exceptions h with [] => [] | l => NL :: flat_map u_exception l end)
    = match h_exceptions h with [] => [] | l => [newline_tok] end ++ flat_map exc_toks (h_exceptions h)) as ->.
  { destruct (h_exceptions h) as [|e l]; [reflexivity|]. rewrite tokens_cons, tokens_flat_map. simpl (piece_tokens _). cbn [app].
    f_equal. apply flat_map_ext. intros e0. unfold u_exception, exc_toks. rewrite !tokens_app.
    destruct (xc_status e0 =? 0)%Z; reflexivity. }
  simpl (tokens [W "http"; _; _; _; _]). rewrite plain_escape by exact HP. reflexivity.
Qed.
Lemma resource_of_name path r : resource_of path r -> resource_name path = r.
Proof.
  assert (forall x, has_char "{" x -> negb (contains "{" x) = false) as C1.
  { intros x (u & v & ->). apply negb_false_iff. apply contains_spec. exists u, v. reflexivity. }
  assert (forall b, Forall (has_char "{") b -> forall t, find (fun e => negb (contains "{" e)) (rev b ++ t) = find (fun e => negb (contains "{" e)) t) as C2.
  { intros b HF t. assert (forall b, Forall (has_char "{") b -> find (fun e => negb (contains "{" e)) (b ++ t) = find (fun e => negb (contains "{" e)) t) as G.
    { clear b HF. induction 1 as [|y b Hy _ IH]; [reflexivity|]. cbn [app find]. rewrite (C1 y Hy). exact IH. }
    apply G. apply Forall_rev, HF. }
  unfold resource_name. intros [(a & b & -> & H & HF)|(-> & HF)].
  - rewrite rev_app_distr. cbn [rev]. rewrite <- app_assoc. rewrite (C2 b HF). cbn [app find].
    assert (contains "{" r = false) as ->; [|reflexivity]. destruct (contains "{" r) eqn:E; [|reflexivity]. exfalso. apply H.
    apply contains_spec in E as (u & v & ->). exists u, v. reflexivity.
  - rewrite <- (app_nil_r (rev _)). rewrite (C2 _ HF). reflexivity.
Qed.
Lemma action_of_name m r n : action_of m r n -> n = action_name m r /\ r <> "".
Proof.
  intros (c & s & -> & L & ->). split; [|discriminate]. unfold action_name, capitalize, upper1, is_ascii7.
  apply Nat.ltb_lt in L. rewrite L. reflexivity.
Qed.
Lemma ensured h ins x : http_name_ok h ->
  ensure_action_name (mkHttp (if named_opt h then h_name h else "") "" (h_comment h) (h_annos h) (h_method h) (h_path h) ins x (h_exceptions h))
  = mkHttp (h_name h) (h_resource h) (h_comment h) (h_annos h) (h_method h) (h_path h) ins x (h_exceptions h).
Proof.
  intros [(N1 & N2 & R)|[(R & A)|(R & R' & N')]].
  - assert (named_opt h = true) as E.
    { unfold named_opt. rewrite R. apply seqb_neq in N2. unfold action_name. simpl (capitalize ""). rewrite append_nil_r, N2.
      destruct N1 as (c & s & -> & _). reflexivity. }
    rewrite E. unfold ensure_action_name. simpl. rewrite R. destruct N1 as (c & s & -> & _). reflexivity.
  - apply resource_of_name in R. apply action_of_name in A as (A & NR). assert (named_opt h = false) as E.
    { unfold named_opt. rewrite A, seqb_refl. apply andb_false_r. }
    rewrite E. unfold ensure_action_name. simpl. rewrite R. apply seqb_neq in NR. rewrite NR, <- A. reflexivity.
  - apply resource_of_name in R. assert (named_opt h = false) as E by (unfold named_opt; rewrite N'; reflexivity).
    rewrite E. unfold ensure_action_name. simpl. rewrite R, R', N'. reflexivity.
Qed.
(** what is read in the end *)
Definition done_param (p : paramspec) : paramspec :=
  let f := ps_field p in
  mkParam (ps_header p) (ps_query p) (ps_path p)
    (mkField (fd_name f) (fd_comment f) (fd_annos f) (fd_required f) (norm (fd_default f)) (fd_spec f)).
Definition done_http (h : httpdef) (c : string) : httpdef :=
  let x := h_exp h in
  mkHttp (h_name h) (h_resource h) c (h_annos h) (h_method h) (h_path h) (map done_param (h_inputs h))
    (Some (mkExp (map done_param (xp_outputs x)) (xp_status x) (xp_comment x) (xp_annos x))) (h_exceptions h).
Lemma done_same h c : writable_http h -> same_http h c (done_http h c).
Proof.
  intros (_ & _ & _ & _ & HI & (x & HX & _ & _ & _ & HO) & _).
  assert (forall path l req, Forall (fun p => writable_param path (req p) p) l -> Forall2 same_param l (map done_param l)) as F.
  { intros path l req. induction 1 as [|p l Hp _ IH]; [constructor|]. constructor; [|exact IH].
    exists (norm (fd_default (ps_field p))). split; [|reflexivity]. apply (norm_same X dec_text). apply Hp. }
  exists (map done_param (h_inputs h)), x. eexists. split; [eapply F, HI|]. split; [exact HX|].
  split; [eexists; split; [eapply F, HO|reflexivity]|]. unfold done_http, h_exp. rewrite HX. reflexivity.
Qed.
Lemma http_reads h c rest : writable_http h ->
  yields (fun n => parse_http_directive X n c) None (h_toks h ++ rest) (done_http h c) (Some newline_tok) rest.
Proof.
  intros HW. pose proof HW as (HM & HP & HA & HN & HI & (x & HX & X1 & X2 & X3 & HO) & ND & HE).
  assert (h_exp h = x) as Ex by (unfold h_exp; rewrite HX; reflexivity).
  unfold h_toks, parse_http_directive. cbn [app]. ybind; [apply y_identifier|].
  assert (to_upper (h_method h) = h_method h) as ->.
  { simpl in HM. repeat (destruct HM as [<- |HM]; [reflexivity|]). destruct HM. }
  assert (str_mem (h_method h) http_methods = true) as -> by (apply str_mem_In; exact HM). cbn [negb].
  ybind. { apply y_weak_l. unfold expect_string. yget. change (is_type STRING (mkTok STRING (h_path h))) with true. cbv iota. apply y_ret. }
  simpl tk_text. rewrite <- !app_assoc. apply y_weak_l. ybind.
  { apply y_options; [apply h_items, HA|]. eexists _, _. split; [reflexivity|]. split; [reflexivity|discriminate]. }
  cbn [app]. yget. change (is_type OPEN_BRACE open_tok) with true. cbv iota. ybind.
  { unfold parse_trailing_comment. yget. change (is_type LINE_COMMENT newline_tok) with false. cbv iota. yunget. apply y_ret. }
  destruct (h_fold h HA) as (-> & -> & ->). rewrite <- !app_assoc. rewrite Ex. cbn [app].
  set (h0 := mkHttp (if named_opt h then h_name h else "") "" c (h_annos h) (h_method h) (h_path h) [] None []).
  set (hf := mkHttp (if named_opt h then h_name h else "") "" c (h_annos h) (h_method h) (h_path h) (map raw (h_inputs h)) (Some (raw_exp x)) (h_exceptions h)).
  eapply (y_bind _ _ _ _ hf (Some close_tok) (newline_tok :: rest)).
  - apply (y_loop http_body). apply (h_inputs_read (h_inputs h) (fun p => ps_header p <> "") h0) with (j := [newline_tok]).
    + exact HI.
    + intros o1 j1 J1. eapply h_expected_read with (req := fun p => xp_status x <> 204%Z /\ xp_status x <> 304%Z /\ ps_header p = ""); try assumption; try reflexivity.
      intros o2 j2 J2. rewrite app_assoc. apply h_exceptions_read.
      * exact HE.
      * simpl. exact ND.
      * intros o3 j3 J3. simpl. apply it_stop. unfold http_body. ybind; [apply y_weak_l, y_block_end, no_comment_junk, J3|]. apply y_ret.
      * apply Forall_app. split; [exact J2|]. destruct (h_exceptions h); constructor; [reflexivity|constructor].
    + constructor; [reflexivity|constructor].
  - ybind; [apply y_weak_l, (y_eos _ None)|]. cbv beta iota. apply y_ret'. simpl eos_comment. unfold hf, set_http_comment. cbn [h_name h_resource h_comment h_annos h_method h_path h_inputs h_expected h_exceptions].
    pose proof (ensured (mkHttp (h_name h) (h_resource h) c (h_annos h) (h_method h) (h_path h) [] None (h_exceptions h)) (map raw (h_inputs h)) (Some (raw_exp x))) as E.
    cbn [h_name h_resource h_comment h_annos h_method h_path h_inputs h_expected h_exceptions] in E.
    change (named_opt (mkHttp (h_name h) (h_resource h) c (h_annos h) (h_method h) (h_path h) [] None (h_exceptions h))) with (named_opt h) in E.
    rewrite E by exact HN. unfold ensure_required_params, done_http. rewrite Ex. simpl. f_equal.
    + rewrite map_map. apply map_ext_in. intros p Hp. rewrite Forall_forall in HI. destruct (HI p Hp) as (_ & _ & _ & _ & _ & _ & _ & R & Q).
      unfold raw, done_param, set_required. simpl. destruct (ps_header p =?s "") eqn:Eh.
      * apply seqb_eq in Eh. rewrite andb_false_r. destruct (fd_required (ps_field p)); [|reflexivity]. destruct (proj1 Q eq_refl Eh).
      * apply seqb_neq in Eh. assert (ps_query p = "") as Eq.
        { destruct R as [(_ & Eq & _)|[(Eq & _)|[(Eq & _)|(Eq & _)]]]; [exact Eq|contradiction..]. }
        rewrite Eq. simpl. rewrite (proj2 Q Eh). reflexivity.
    + f_equal. unfold raw_exp. simpl.
      assert (forall g, (forall p, In p (xp_outputs x) -> g (raw p) = done_param p) -> map g (map raw (xp_outputs x)) = map done_param (xp_outputs x)) as G.
      { intros g Hg. rewrite map_map. apply map_ext_in. exact Hg. }
      rewrite Forall_forall in HO.
      destruct (Z.eqb_spec (xp_status x) 204) as [N1|N1]; [|destruct (Z.eqb_spec (xp_status x) 304) as [N2|N2]]; simpl.
      * rewrite X2. f_equal. rewrite <- (map_id (map raw _)). apply G. intros p Hp. destruct (HO p Hp) as (_ & _ & _ & _ & _ & _ & _ & _ & Q).
        unfold raw, done_param. destruct (fd_required (ps_field p)); [|reflexivity]. destruct (proj1 Q eq_refl) as (Q1 & _). contradiction.
      * rewrite X2. f_equal. rewrite <- (map_id (map raw _)). apply G. intros p Hp. destruct (HO p Hp) as (_ & _ & _ & _ & _ & _ & _ & _ & Q).
        unfold raw, done_param. destruct (fd_required (ps_field p)); [|reflexivity]. destruct (proj1 Q eq_refl) as (_ & Q1 & _). contradiction.
      * rewrite X2. f_equal. apply G. intros p Hp. destruct (HO p Hp) as (_ & _ & _ & _ & _ & _ & _ & _ & Q).
        unfold raw, done_param, set_required. simpl. destruct (ps_header p =?s "") eqn:Eh.
        -- apply seqb_eq in Eh. rewrite (proj2 Q); [reflexivity|]. auto.
        -- apply seqb_neq in Eh. destruct (fd_required (ps_field p)); [|reflexivity]. destruct (proj1 Q eq_refl) as (_ & _ & Q1). contradiction.
Qed.
End H.
