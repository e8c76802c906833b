(** Reading the text of operations and examples. *)
From Verif Require Import GoStr Outcome Value Schema Scalars Time Misc MiscFacts Model Scan ScanFacts Acts Parser
  SpecModel SpecMisc SpecText SpecOptions LiteralFacts OptionFacts PositionFacts Yields Unparser SpecUnparse UnparseFacts UnparseBlocks UnparseValues.

Lemma y_try {A} (p : nat -> prog A) o l a o' l' : yields p o l a o' l' -> yields (fun n => try (p n)) o l (Some a) o' l'.
Proof.
  intros (N & H). exists N. intros n Hn st S. destruct (H n Hn st S) as (st' & R & S'). exists st'. split; [|exact S'].
  clear - R. revert st st' R. induction (p n) as [b|e| | |k IH|k IH]; intros st st' R; simpl in *; try discriminate.
  - injection R as <- <-. reflexivity.
  - destruct (get_token st) as [t st1]. apply (IH t _ _ R).
  - apply (IH _ _ R).
Qed.
Lemma y_expect ty s l : yields (fun _ => expect ty) None (mkTok ty s :: l) tt (Some (mkTok ty s)) l \/ ty = BLOCK_COMMENT.
Proof.
  destruct (is_block (mkTok ty s)) eqn:B; [right; destruct ty; try discriminate; reflexivity|left].
  unfold expect. apply y_get; [exact B|]. unfold is_type. simpl. unfold teqb. destruct (ttype_eq_dec ty ty); [|congruence]. apply y_ret.
Qed.

Section O.
Variable X : ext.
Variable dec_text : decimal -> string.
Definition open_tok : token := mkTok OPEN_BRACE "{".

Lemma y_section {A B} (l : list A) (tk : A -> list token) (entry : nat -> token -> prog B) (f : A -> B) rest :
  Forall (fun a => exists t r, tk a = t :: r /\ tk_type t = SYMBOL /\
    forall rest, yields (fun n => entry n t) (Some t) (r ++ newline_tok :: rest) (f a) None (newline_tok :: rest)) l ->
  yields (fun n => op_section n (entry n)) None (open_tok :: newline_tok :: flat_map (fun a => tk a ++ [newline_tok]) l ++ close_tok :: rest)
    (map f l) (Some close_tok) rest.
Proof.
  intros H. unfold op_section. yget. change (is_type OPEN_BRACE open_tok) with true. cbv iota. yget.
  apply (y_loop (fun n '((l, t) : list B * option token) =>
          match t with
          | None => Ret (inr [])
          | Some tok =>
              match tk_type tok with
              | CLOSE_BRACE => Ret (inr l)
              | NEWLINE => Get (fun t => match t with None => fail_eof | Some _ => Ret (inl (l, t)) end)
              | _ => a <~ entry n tok ;; Get (fun t => Ret (inl (l ++ [a], t)))
              end
          end)).
  enough (forall acc, iters (fun n '((l, t) : list B * option token) =>
          match t with
          | None => Ret (inr [])
          | Some tok =>
              match tk_type tok with
              | CLOSE_BRACE => Ret (inr l)
              | NEWLINE => Get (fun t => match t with None => fail_eof | Some _ => Ret (inl (l, t)) end)
              | _ => a <~ entry n tok ;; Get (fun t => Ret (inl (l ++ [a], t)))
              end
          end) (acc, Some newline_tok) (Some newline_tok) (flat_map (fun a => tk a ++ [newline_tok]) l ++ close_tok :: rest)
          (acc ++ map f l) (Some close_tok) rest) as G by apply (G []).
  induction H as [|a l (t & r & E & T & Y) _ IH]; intros acc; cbn [map flat_map].
  - rewrite app_nil_r. simpl. eapply it_next; [cbv beta iota; yget; apply y_ret|]. apply it_stop. apply y_ret.
  - rewrite E. simpl. rewrite <- !app_assoc. simpl ([newline_tok] ++ _).
    assert (is_block t = false) as Bt by (unfold is_block; rewrite T; reflexivity).
    eapply it_next; [cbv beta iota; apply y_get; [exact Bt|]; apply y_ret|].
    eapply it_next.
    { cbv beta iota. rewrite T. ybind; [apply Y|]. yget. apply y_ret. }
    specialize (IH (acc ++ [f a])). rewrite <- app_assoc in IH. exact IH.
Qed.

Definition input_toks (i : fielddef) : list token :=
  [mkTok SYMBOL (fd_name i); mkTok SYMBOL (ts_type (fd_spec i))]
  ++ (if fd_required i then [mkTok OPEN_PAREN "("; mkTok SYMBOL "required"; mkTok CLOSE_PAREN ")"] else []).
Lemma op_input_toks i : plain_input i -> tokens (u_op_input dec_text i) = input_toks i ++ [newline_tok].
Proof.
  intros (_ & t & _ & E). unfold u_op_input, input_toks, op_comment_before, op_comment_behind.
  assert (fd_comment i = "") as -> by (rewrite E; reflexivity). simpl (_ =?s _). cbn [negb andb]. unfold u_trailing.
  change ("" =?s "") with true. cbv iota. match goal with |- context [if ?b then [] else []] => replace (if b then [] else []) with (@nil piece) by (destruct b; reflexivity) end.
  destruct (fd_required i); reflexivity.
Qed.
Lemma op_input_reads i : plain_input i -> exists t r, input_toks i = t :: r /\ tk_type t = SYMBOL /\
  forall rest, yields (fun n => op_input n t) (Some t) (r ++ newline_tok :: rest) i None (newline_tok :: rest).
Proof.
  intros (_ & t & _ & E). eexists _, _. split; [reflexivity|]. split; [reflexivity|]. intros rest. simpl ((_ :: _) ++ _).
  unfold op_input. simpl (negb _). cbv iota. unfold op_symbol. yget. unfold is_type at 1. simpl (teqb _ _). cbv iota. simpl (tk_text _).
  eapply (y_bind _ _ _ _ (fd_required i) None (newline_tok :: rest)).
  - destruct (fd_required i); simpl.
    + yget. change (is_type OPEN_PAREN (mkTok OPEN_PAREN "(")) with true. cbv iota. eapply y_weak_r. apply (y_loop (fun _ req => _)).
      eapply it_next; [yget; apply y_ret|]. eapply it_stop. yget. apply y_ret.
    + yget. change (is_type OPEN_PAREN newline_tok) with false. cbv iota. yunget. apply y_ret.
  - apply y_ret'. rewrite E. reflexivity.
Qed.
Definition output_toks (o : opoutput) : list token := [mkTok SYMBOL (oo_name o); mkTok SYMBOL (ts_type (oo_spec o))].
Lemma op_output_toks o : plain_output o -> tokens (u_op_output dec_text [] o) = output_toks o ++ [newline_tok].
Proof.
  intros (_ & t & _ & E). unfold u_op_output, output_toks, op_comment_before, op_comment_behind.
  assert (oo_comment o = "") as -> by (rewrite E; reflexivity). simpl (_ =?s _). cbn [negb andb]. unfold u_trailing.
  change ("" =?s "") with true. cbv iota. match goal with |- context [if ?b then [] else []] => replace (if b then [] else []) with (@nil piece) by (destruct b; reflexivity) end.
  reflexivity.
Qed.
Lemma op_output_reads o : plain_output o -> exists t r, output_toks o = t :: r /\ tk_type t = SYMBOL /\
  forall rest, yields (fun n => op_output t) (Some t) (r ++ newline_tok :: rest) o None (newline_tok :: rest).
Proof.
  intros (_ & t & _ & E). eexists _, _. split; [reflexivity|]. split; [reflexivity|]. intros rest. simpl ((_ :: _) ++ _).
  unfold op_output. simpl (negb _). cbv iota. unfold op_symbol. yget. unfold is_type at 1. simpl (teqb _ _). cbv iota. simpl (tk_text _).
  eapply y_weak_r. apply y_ret'. rewrite E. reflexivity.
Qed.
Lemma op_exception_reads e : exists t r, [mkTok SYMBOL e] = t :: r /\ tk_type t = SYMBOL /\
  forall rest, yields (fun n => op_exception t) (Some t) (r ++ newline_tok :: rest) e None (newline_tok :: rest).
Proof.
  eexists _, _. split; [reflexivity|]. split; [reflexivity|]. intros rest. unfold op_exception. simpl. eapply y_weak_r. apply y_ret.
Qed.

(** a section, if there is one, with the line break before it and without its own *)
Definition section_toks {A} (name : string) (l : list A) (tk : A -> list token) : list token :=
  match l with
  | [] => []
  | _ => mkTok SYMBOL name :: open_tok :: newline_tok :: flat_map (fun a => tk a ++ [newline_tok]) l ++ [close_tok; newline_tok]
  end.
Lemma flat_map_Forall {A} (f g : A -> list token) l : Forall (fun a => f a = g a) l -> flat_map f l = flat_map g l.
Proof. induction 1 as [|y l E _ IH]; [reflexivity|]. simpl. rewrite E, IH. reflexivity. Qed.
Lemma u_section_toks {A} name (l : list A) f tk : Forall (fun a => tokens (f a) = tk a ++ [newline_tok]) l ->
  tokens (u_section name l f) = section_toks name l tk.
Proof.
  intros H. destruct l as [|x l]; [reflexivity|]. unfold u_section, section_toks. rewrite !tokens_app, tokens_flat_map.
  rewrite (flat_map_Forall _ _ _ H). reflexivity.
Qed.

Definition op_body (n : nat) : list fielddef * list opoutput * list string ->
  prog (list fielddef * list opoutput * list string + list fielddef * list opoutput * list string) :=
  fun '((ins, outs, excs) : list fielddef * list opoutput * list string) =>
    Get (fun t => match t with
      | None => fail_eof
      | Some tok =>
          match tk_type tok with
          | CLOSE_BRACE => Ret (inr (ins, outs, excs))
          | SYMBOL =>
              if tk_text tok =?s "inputs" then i <~ op_section n (op_input n) ;; Ret (inl (i, outs, excs))
              else if tk_text tok =?s "outputs" then x <~ op_section n op_output ;; Ret (inl (ins, x, excs))
              else if tk_text tok =?s "exceptions" then x <~ op_section n op_exception ;; Ret (inl (ins, outs, x))
              else Fail (PBad "section")
          | _ => Ret (inl (ins, outs, excs))
          end
      end).
Lemma sec_inputs l o x a o' l' rest : Forall plain_input l -> (forall o, iters op_body (l, [], []) o rest x o' l') ->
  a = ([], [], []) -> iters op_body a o (section_toks "inputs" l input_toks ++ rest) x o' l'.
Proof.
  intros H K ->. destruct l as [|i l]; [apply K|]. set (L := i :: l) in *. unfold section_toks. fold L.
  destruct L eqn:EL; [discriminate|]. rewrite <- EL in *. simpl ((_ :: _) ++ rest). rewrite <- app_assoc. simpl ([_; _] ++ rest).
  eapply it_next.
  { unfold op_body. yget. simpl tk_text. change ("inputs" =?s "inputs") with true. cbv iota. apply y_weak_l.
    ybind; [apply (y_section L input_toks op_input (fun i => i)); rewrite Forall_forall in *; intros; apply op_input_reads; auto|].
    rewrite map_id. apply y_ret. }
  eapply it_next; [unfold op_body; yget; apply y_ret|]. apply K.
Qed.
Lemma sec_outputs l ins o x o' l' rest : Forall plain_output l -> (forall o, iters op_body (ins, l, []) o rest x o' l') ->
  iters op_body (ins, [], []) o (section_toks "outputs" l output_toks ++ rest) x o' l'.
Proof.
  intros H K. destruct l as [|i l]; [apply K|]. set (L := i :: l) in *. unfold section_toks. fold L.
  destruct L eqn:EL; [discriminate|]. rewrite <- EL in *. simpl ((_ :: _) ++ rest). rewrite <- app_assoc. simpl ([_; _] ++ rest).
  eapply it_next.
  { unfold op_body. yget. simpl tk_text. change ("outputs" =?s "outputs") with true. change ("outputs" =?s "inputs") with false. cbv iota. apply y_weak_l.
    ybind; [apply (y_section L output_toks (fun _ => op_output) (fun i => i)); rewrite Forall_forall in *; intros; apply op_output_reads; auto|].
    rewrite map_id. apply y_ret. }
  eapply it_next; [unfold op_body; yget; apply y_ret|]. apply K.
Qed.
Lemma sec_exceptions l ins outs o x o' l' rest : (forall o, iters op_body (ins, outs, l) o rest x o' l') ->
  iters op_body (ins, outs, []) o (section_toks "exceptions" l (fun e => [mkTok SYMBOL e]) ++ rest) x o' l'.
Proof.
  intros K. destruct l as [|i l]; [apply K|]. set (L := i :: l) in *. unfold section_toks. fold L.
  destruct L eqn:EL; [discriminate|]. rewrite <- EL in *. simpl ((_ :: _) ++ rest). rewrite <- app_assoc. simpl ([_; _] ++ rest).
  eapply it_next.
  { unfold op_body. yget. simpl tk_text. change ("exceptions" =?s "outputs") with false. change ("exceptions" =?s "inputs") with false.
    change ("exceptions" =?s "exceptions") with true. cbv iota. apply y_weak_l.
    ybind; [apply (y_section L (fun e => [mkTok SYMBOL e]) (fun _ => op_exception) (fun i => i)); rewrite Forall_forall; intros; apply op_exception_reads|].
    rewrite map_id. apply y_ret. }
  eapply it_next; [unfold op_body; yget; apply y_ret|]. apply K.
Qed.
Definition set_op_comment (op : opdef) (c : string) : opdef :=
  mkOp (op_name op) c (op_annos op) (op_inputs op) (op_outputs op) (op_exceptions op).
Definition op_toks (op : opdef) : list token :=
  mkTok SYMBOL (op_name op) :: tokens (u_annos (op_annos op)) ++ open_tok :: newline_tok ::
  section_toks "inputs" (op_inputs op) input_toks ++ section_toks "outputs" (op_outputs op) output_toks
  ++ section_toks "exceptions" (op_exceptions op) (fun e => [mkTok SYMBOL e]) ++ [close_tok; newline_tok].
Lemma last_opt_none op : writable_op op -> op_outputs op <> [] -> last_opt op = [].
Proof.
  intros (_ & _ & _ & _ & _ & H) N. destruct (H N) as (H1 & H2). unfold last_opt. destruct (rev (op_inputs op)) as [|i r] eqn:E.
  - apply (f_equal (@rev _)) in E. rewrite rev_involutive in E. rewrite (H1 E). reflexivity.
  - apply (f_equal (@rev _)) in E. rewrite rev_involutive in E. simpl in E. rewrite (H2 _ _ E). reflexivity.
Qed.
Lemma operation_toks op : writable_op op -> tokens (u_operation dec_text op) = mkTok SYMBOL "operation" :: op_toks op.
Proof.
  intros Wr. pose proof Wr as (_ & _ & HI & HO & HE & _). unfold u_operation, op_toks. rewrite !tokens_app. fold (u_annos (op_annos op)).
  rewrite (u_section_toks _ _ _ input_toks) by (eapply Forall_impl; [|exact HI]; intros; apply op_input_toks; assumption).
  rewrite (u_section_toks _ _ (u_op_output dec_text (last_opt op)) output_toks).
  2:{ destruct (op_outputs op) eqn:E; [constructor|]. rewrite last_opt_none; [|exact Wr|rewrite E; discriminate].
      eapply Forall_impl; [|exact HO]; intros; apply op_output_toks; assumption. }
  rewrite (u_section_toks _ _ _ (fun e => [mkTok SYMBOL e])) by (apply Forall_forall; reflexivity).
  reflexivity.
Qed.
Lemma operation_reads op c rest : writable_op op ->
  yields (fun n => parse_operation_directive X n c) None (op_toks op ++ rest) (set_op_comment op c) None (newline_tok :: rest).
Proof.
  intros (Hn & Ha & HI & HO & HE & _). unfold op_toks, parse_operation_directive. simpl ((_ :: _) ++ rest).
  ybind; [apply y_identifier|]. apply y_weak_l. rewrite <- app_assoc. ybind.
  { apply y_try. apply (y_options X ["http"] (map u_anno (op_annos op)) (map anno_opt (op_annos op))); [apply annos_items, Ha|].
    eexists _, _. split; [reflexivity|]. split; [reflexivity|discriminate]. }
  simpl ((_ :: _ :: _) ++ rest). ybind. { destruct (y_expect OPEN_BRACE "{" (newline_tok :: (section_toks "inputs" (op_inputs op) input_toks ++ section_toks "outputs" (op_outputs op) output_toks
  ++ section_toks "exceptions" (op_exceptions op) (fun e => [mkTok SYMBOL e]) ++ [close_tok; newline_tok]) ++ rest)) as [Y|Y]; [exact Y|discriminate]. }
  rewrite with_annos by exact Ha. rewrite <- !app_assoc. simpl ([_; _] ++ rest).
  ybind.
  { apply (y_loop op_body). eapply it_next; [unfold op_body; yget; apply y_ret|].
    apply sec_inputs; [exact HI| |reflexivity]. intros o1. apply sec_outputs; [exact HO|]. intros o2. apply sec_exceptions. intros o3.
    apply it_stop. unfold op_body. yget. apply y_ret. }
  cbv beta iota. eapply y_weak_r. apply y_ret.
Qed.

(** ** Examples *)
Definition set_ex (e : exampledef) (c : string) (v : value) : exampledef := mkEx (ex_target e) (ex_name e) v c [].
Lemma split_nonempty sep s : split sep s <> [].
Proof. induction s as [|a s IH]; simpl; [discriminate|]. destruct (Ascii.eqb a sep); [discriminate|]. destruct (split sep s); [contradiction|discriminate]. Qed.
Lemma y_compound l rest : l <> [] -> starts_no DOT rest ->
  yields (fun n => expect_compound n) None (tokens (join_pieces [P DOT] (map (fun w => [W w]) l)) ++ rest) (join "." l) None rest.
Proof.
  intros N S. induction l as [|w l IH]; [contradiction|]. apply y_S. cbn [expect_compound]. destruct l as [|w' l].
  - simpl. ybind; [apply y_identifier|]. destruct S as (t & r & -> & B & T). apply y_get; [exact B|]. cbv beta iota.
    apply is_type_neq in T. rewrite T. apply y_unget; [exact B|]. apply y_ret.
  - change (join_pieces [P DOT] (map (fun w => [W w]) (w :: w' :: l))) with ([W w] ++ [P DOT] ++ join_pieces [P DOT] (map (fun w => [W w]) (w' :: l))).
    rewrite !tokens_app. simpl (tokens [W w]). simpl (tokens [P DOT]). simpl ((_ :: _) ++ rest). rewrite <- app_assoc. simpl ([_] ++ _).
    ybind; [apply y_identifier|]. yget. change (is_type DOT (mkTok DOT ".")) with true. cbv iota.
    apply y_weak_l. ybind; [apply IH; discriminate|]. apply y_ret.
Qed.
Definition ex_toks (e : exampledef) : list token :=
  tokens (u_dotted (ex_target e)) ++ mkTok OPEN_PAREN "(" :: mkTok SYMBOL "name" :: mkTok EQUALS "=" :: mkTok SYMBOL (ex_name e)
  :: mkTok CLOSE_PAREN ")" :: tokens (u_pretty dec_text "" (ex_example e)) ++ [newline_tok; newline_tok].
Lemma example_toks e : identifier (ex_name e) -> tokens (u_example dec_text e) = mkTok SYMBOL "example" :: ex_toks e.
Proof.
  intros (ch & r & E & _). unfold u_example, ex_toks, u_word. rewrite !tokens_app. rewrite E. reflexivity.
Qed.
Lemma example_reads e c rest : writable_example X dec_text e ->
  yields (fun n => parse_example_directive X n c) None (ex_toks e ++ rest) (set_ex e c (norm (ex_example e))) None (newline_tok :: newline_tok :: rest).
Proof.
  intros (Ht & Hn & Hv & _). unfold ex_toks, parse_example_directive. rewrite <- !app_assoc. simpl ((_ :: _) ++ rest). ybind.
  { unfold u_dotted. apply y_compound; [apply split_nonempty|]. eexists _, _. split; [reflexivity|]. split; [reflexivity|discriminate]. }
  rewrite join_split. rewrite <- app_assoc. simpl ([_; _] ++ rest).
  eapply (y_bind _ _ _ _ (set_opt_name (ex_name e) no_options)).
  - unfold parse_options. yget. change (is_type OPEN_PAREN (mkTok OPEN_PAREN "(")) with true. cbv iota. eapply y_weak_r.
    apply (y_loop (fun n o => _)). eapply it_next.
    { yget. simpl tk_type. cbv iota. simpl tk_text. change (to_lower "name") with "name". change (has_prefix "x_" "name") with false.
      change (str_mem "name" ["name"]) with true. cbv iota. ybind.
      { unfold parse_option. simpl. ybind; [|apply y_ret]. unfold expect_equals_identifier.
        ybind. { unfold expect. yget. change (is_type EQUALS (mkTok EQUALS "=")) with true. cbv iota. apply y_ret. }
        apply y_weak_l. apply y_identifier. }
      apply y_ret. }
    eapply it_stop. yget. apply y_ret.
  - cbv beta. ybind; [apply y_literal; apply pretty_literal; exact Hv|]. apply y_ret.
Qed.
End O.
