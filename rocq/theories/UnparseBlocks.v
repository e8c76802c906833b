(** Reading the text of types with braces, and of a type definition. *)
From Verif Require Import GoStr Outcome Value Schema Scalars Time TimeFacts Misc MiscFacts Model Scan ScanFacts Acts Parser
  SpecModel SpecMisc SpecText SpecOptions LiteralFacts OptionFacts PositionFacts InlineFacts Yields Unparser SpecUnparse UnparseFacts.

Lemma tokens_flat_map {A} (f : A -> list piece) l : tokens (flat_map f l) = flat_map (fun x => tokens (f x)) l.
Proof. induction l as [|x l IH]; [reflexivity|]. simpl. rewrite tokens_app, IH. reflexivity. Qed.
Lemma junk_newline : junk newline_tok.
Proof. left. reflexivity. Qed.
Definition close_tok : token := mkTok CLOSE_BRACE "}".

(** ** Comments are junk *)
Lemma junk_app a b : Forall junk a -> Forall junk b -> Forall junk (a ++ b).
Proof. intros. apply Forall_app. auto. Qed.
Lemma flush_junk tab cur : Forall junk (tokens (flush tab cur)).
Proof. destruct cur as [c|]; [|constructor]. constructor; [right; reflexivity|constructor]. Qed.
Lemma wrap_junk tab maxcol toks : forall col cur, Forall junk (tokens (u_wrap tab maxcol col cur toks)).
Proof.
  induction toks as [|t toks IH]; intros col cur; simpl; [apply flush_junk|].
  destruct (_ || _); [|apply IH]. rewrite tokens_app. apply junk_app; [|apply IH].
  destruct (maxcol <=? col + slen t)%Z; [|constructor]. rewrite tokens_app. apply junk_app; [apply flush_junk|].
  constructor; [exact junk_newline|constructor].
Qed.
Lemma comment_junk indent c maxcol pad : Forall junk (tokens (u_comment indent c maxcol pad)).
Proof.
  unfold u_comment. destruct (_ && _).
  { repeat (constructor; [first [left; reflexivity|right; reflexivity]|]). constructor. }
  destruct (contains nl c).
  { rewrite tokens_flat_map. induction (split "010" c) as [|x l IH]; [constructor|]. simpl.
    constructor; [right; reflexivity|]. constructor; [left; reflexivity|]. exact IH. }
  assert (Forall junk (tokens (if pad then [Sp (spaces (String.length indent)); C ""; NL] else []))) as Hp.
  { destruct pad; [|constructor]. constructor; [right; reflexivity|]. constructor; [left; reflexivity|constructor]. }
  rewrite !tokens_app. apply junk_app; [exact Hp|]. apply junk_app; [|exact Hp]. apply junk_app; [apply wrap_junk|].
  constructor; [exact junk_newline|constructor].
Qed.

Definition trailing_com (c : string) : option string := if c =?s "" then None else Some (" " +++ c).
Lemma trailing_toks c : tokens (u_trailing c) = com_toks (trailing_com c).
Proof. unfold u_trailing, trailing_com. destruct (c =?s ""); reflexivity. Qed.
Lemma trim_blank c : trim_space (" " +++ c) = trim_space c.
Proof. reflexivity. Qed.
Lemma trailing_entry c : trimmed c -> entry_comment (trailing_com c) = c.
Proof.
  intros H. unfold trailing_com. destruct (c =?s "") eqn:E; [apply seqb_eq in E; subst; reflexivity|].
  unfold entry_comment. rewrite trim_blank. apply trimmed_trim, H.
Qed.

Section U.
Variable X : ext.
Variable dec_text : decimal -> string.
Notation u_spec := (u_spec dec_text).
Notation reads_back := (reads_back X dec_text).
Notation writable := (writable X dec_text).
Notation entry_reads := (entry_reads X dec_text).
Notation braced_reads := (braced_reads X dec_text).

(** ** The entries of a block *)
Definition bare_field (f : fielddef) : fielddef :=
  mkField (fd_name f) "" (fd_annos f) (fd_required f) (fd_default f) (bare (fd_spec f)).
Record ent := mkEnt { en_pre : list token; en_name : string; en_ts : typespec; en_req : bool; en_annos : annos;
  en_com : option string; en_indent : string }.
Definition ent_toks (e : ent) : list token :=
  en_pre e ++ entry_toks (en_name e) (u_spec (en_ts e) (f_opts (en_req e) (en_annos e)) (en_indent e)) (en_com e).
Definition ent_field (c : string) (ts : typespec) (e : ent) : fielddef :=
  mkField (en_name e) c (if braced (ts_type (en_ts e)) then [] else en_annos e)
    (if braced (ts_type (en_ts e)) then false else en_req e) VNil ts.
Definition ent_ok (e : ent) : Prop := Forall junk (en_pre e) /\ annos_ok (en_annos e) /\ entry_reads (en_ts e).
Definition ent_tidy (e : ent) : Prop :=
  tidy (en_ts e) /\ no_comment (en_pre e) /\ (empty_struct (en_ts e) -> en_com e = None).
Lemma y_field_end j rest : Forall junk j ->
  yields (fun n => parse_struct_field X n (type_spec_elements X n)) None (j ++ close_tok :: rest) None (Some close_tok) rest.
Proof.
  intros J. unfold parse_struct_field. eapply (y_bind _ _ _ _ None (Some close_tok) rest); [|apply y_ret].
  apply (y_loop (fun _ c => _)).
  enough (forall c0 o, iters (fun (_ : nat) c => Get (fun t => match t with
    | None => fail_eof
    | Some tok =>
        match tk_type tok with
        | CLOSE_BRACE => Ret (inr None)
        | LINE_COMMENT => Ret (inl (merge_comment "" (tk_text tok)))
        | NEWLINE => Ret (inl c)
        | _ => Unget (Ret (inr (Some c)))
        end
    end)) c0 o (j ++ close_tok :: rest) None (Some close_tok) rest) as H by apply H.
  induction J as [|x j Hx J IH]; intros c0 o.
  - apply it_stop. yget. apply y_ret.
  - pose proof (junk_type _ Hx) as Bx. simpl. destruct Hx as [Hx|Hx].
    + eapply it_next; [apply y_get; [exact Bx|]; rewrite Hx; apply y_ret|]. apply IH.
    + eapply it_next; [apply y_get; [exact Bx|]; rewrite Hx; apply y_ret|]. apply IH.
Qed.
Lemma y_entries es rest : Forall ent_ok es -> forall j, Forall junk j -> exists fs,
  map bare_field fs = map (fun e => ent_field "" (bare (kept (en_ts e))) e) es
  /\ (no_comment j -> Forall ent_tidy es -> fs = map (fun e => ent_field (entry_comment (en_com e)) (kept (en_ts e)) e) es)
  /\ forall acc, iters (fun n (l : list fielddef) =>
       x <~ parse_struct_field X n (type_spec_elements X n) ;; Ret (match x with None => inr l | Some a => inl (l ++ [a]) end))
       acc None (j ++ flat_map ent_toks es ++ close_tok :: rest) (acc ++ fs) (Some close_tok) rest.
Proof.
  induction 1 as [|e es (Hp & Ha & He) HF IH]; intros j J.
  - exists []. split; [reflexivity|]. split; [reflexivity|]. intros acc. rewrite app_nil_r. simpl. apply it_stop.
    ybind; [apply y_field_end, J|]. apply y_ret.
  - destruct (He (en_indent e) (en_req e) (en_annos e) (en_name e) (en_com e) (j ++ en_pre e)
                (flat_map ent_toks es ++ close_tok :: rest) Ha (junk_app _ _ J Hp)) as (c & ts' & j' & J' & K & T & Y).
    destruct (IH j' J') as (fs & F1 & F2 & F3). exists (ent_field c ts' e :: fs). split.
    { simpl. rewrite F1. f_equal. unfold bare_field, ent_field. simpl. rewrite K. reflexivity. }
    split.
    { intros N FT. inversion FT as [|e' es' (T1 & T2 & T3) FT']; subst.
      destruct (T T1) as (-> & -> & NJ); [apply Forall_app; auto|exact T3|]. simpl. rewrite (F2 NJ FT'). reflexivity. }
    intros acc. eapply it_next.
    + ybind.
      * simpl. unfold ent_toks at 1. rewrite <- !app_assoc. rewrite <- !app_assoc in Y. exact Y.
      * apply y_ret.
    + specialize (F3 (acc ++ [ent_field c ts' e])). rewrite <- app_assoc in F3. exact F3.
Qed.
Lemma y_collect es rest : Forall ent_ok es -> exists fs,
  map bare_field fs = map (fun e => ent_field "" (bare (kept (en_ts e))) e) es
  /\ (Forall ent_tidy es -> fs = map (fun e => ent_field (entry_comment (en_com e)) (kept (en_ts e)) e) es)
  /\ yields (fun n => collect n (parse_struct_field X n (type_spec_elements X n))) None
       (flat_map ent_toks es ++ close_tok :: rest) fs (Some close_tok) rest.
Proof.
  intros H. destruct (y_entries es rest H [] (Forall_nil _)) as (fs & F1 & F2 & F3). exists fs. split; [exact F1|].
  split; [intros; apply F2; [constructor|assumption]|]. unfold collect.
  apply (y_loop (fun n (l : list fielddef) =>
       x <~ parse_struct_field X n (type_spec_elements X n) ;; Ret (match x with None => inr l | Some a => inl (l ++ [a]) end))).
  exact (F3 []).
Qed.

(** the part of a Struct or Union from its name on *)
Lemma elems_fields t es com rest : t = "Struct" \/ t = "Union" -> Forall ent_ok es -> exists fs,
  map bare_field fs = map (fun e => ent_field "" (bare (kept (en_ts e))) e) es
  /\ (Forall ent_tidy es -> fs = map (fun e => ent_field (entry_comment (en_com e)) (kept (en_ts e)) e) es)
  /\ yields (fun n => type_spec_elements X n) None
       (mkTok SYMBOL t :: mkTok OPEN_BRACE "{" :: newline_tok :: flat_map ent_toks es ++ close_tok :: com_toks com ++ newline_tok :: rest)
       (mkTE t None (some_list fs) [] no_options (entry_comment com)) None (newline_tok :: rest).
Proof.
  intros Ht H. destruct (y_collect es (com_toks com ++ newline_tok :: rest) H) as (fs & F1 & F2 & F3). exists fs.
  split; [exact F1|]. split; [exact F2|]. apply y_S. cbn [type_spec_elements].
  ybind; [apply y_identifier|]. yget. change (is_type OPEN_ANGLE (mkTok OPEN_BRACE "{")) with false. cbv beta iota.
  assert (str_mem t ["Struct"; "Enum"; "Union"] = true) as -> by (destruct Ht; subst; reflexivity).
  ybind; [apply y_ret|]. change (is_type OPEN_BRACE (mkTok OPEN_BRACE "{")) with true. cbv beta iota.
  ybind. { unfold parse_trailing_comment. yget. change (is_type LINE_COMMENT newline_tok) with false. cbv iota. yunget. apply y_ret. }
  ybind. { unfold brace_intro. yget. change (is_type NEWLINE newline_tok) with true. cbv iota. apply y_ret. }
  assert (t =?s "Enum" = false) as -> by (destruct Ht; subst; reflexivity).
  apply y_weak_l. ybind; [exact F3|]. apply y_weak_l. ybind; [apply y_eos|]. rewrite eos_entry. yunget. apply y_ret.
Qed.

(** ** Enums *)
Definition elt_toks (e : enumelt) : list token :=
  mkTok SYMBOL (ee_symbol e) :: tokens (u_annos (ee_annos e)) ++ com_toks (trailing_com (ee_comment e)) ++ [newline_tok].
Lemma element_toks indent e : tokens (u_element indent e) = elt_toks e.
Proof.
  unfold u_element, elt_toks. rewrite !tokens_app. simpl (tokens [_; _; _]). rewrite trailing_toks. reflexivity.
Qed.
Definition elt_back (e : enumelt) : enumelt := mkElt (ee_symbol e) (trim_space (ee_comment e)) (ee_annos e).
Lemma elts_tidy es : Forall (fun e => trimmed (ee_comment e)) es -> map elt_back es = es.
Proof.
  induction 1 as [|e es HE _ IH]; [reflexivity|]. simpl. unfold elt_back at 1. rewrite (trimmed_trim _ HE), IH.
  destruct e; reflexivity.
Qed.
Lemma with_annos a : annos_ok a -> fold_left (fun o w => record w o) (map anno_opt a) no_options = with_f false a.
Proof. apply (f_wopts_fold false). Qed.
Lemma y_elements es rest : Forall elt_ok es -> forall o lead, lead = [] \/ lead = [newline_tok] -> forall acc,
  iters (fun n (l : list enumelt) =>
       x <~ parse_enum_element X n ;; Ret (match x with None => inr l | Some a => inl (l ++ [a]) end))
       acc o (lead ++ flat_map elt_toks es ++ close_tok :: rest) (acc ++ map elt_back es) (Some close_tok) rest.
Proof.
  assert (forall o lead, lead = [] \/ lead = [newline_tok] -> forall t l a o' l' (B : is_block t = false), tk_type t = CLOSE_BRACE \/ tk_type t = SYMBOL ->
    yields (fun n => match tk_type t with CLOSE_BRACE => Ret None | _ => Ret (Some (tk_text t, "")) end) (Some t) l a o' l' ->
    yields (fun n => loop n (fun c => Get (fun t => match t with
    | None => fail_eof
    | Some tok =>
        match tk_type tok with
        | CLOSE_BRACE => Ret (inr None)
        | LINE_COMMENT => Ret (inl (merge_comment c (tk_text tok)))
        | SEMICOLON | NEWLINE | COMMA => Ret (inl c)
        | _ => s <~ assert_identifier (Some tok) ;; Ret (inr (Some (s, c)))
        end
    end)) "") o (lead ++ t :: l) a o' l') as L.
  { intros o lead Hl t l a o' l' B Ht Y. apply (y_loop (fun _ c => _)).
    assert (forall o, iters (fun (_ : nat) c => Get (fun t => match t with
    | None => fail_eof
    | Some tok =>
        match tk_type tok with
        | CLOSE_BRACE => Ret (inr None)
        | LINE_COMMENT => Ret (inl (merge_comment c (tk_text tok)))
        | SEMICOLON | NEWLINE | COMMA => Ret (inl c)
        | _ => s <~ assert_identifier (Some tok) ;; Ret (inr (Some (s, c)))
        end
    end)) "" o (t :: l) a o' l') as H.
    { intros o0. apply it_stop. apply y_get; [exact B|]. destruct Y as (N & Y). exists N. intros n Hn st S.
      destruct (Y n Hn st S) as (st' & R & S'). exists st'. split; [|exact S'].
      unfold assert_identifier, is_type, teqb. destruct Ht as [Ht|Ht]; rewrite Ht in *; simpl in *; injection R as <- <-; reflexivity. }
    destruct Hl as [-> | ->]; [apply H|]. simpl. eapply it_next; [yget; apply y_ret|]. apply H. }
  induction 1 as [|e es (H1 & H2 & H3) HF IH]; intros o lead Hl acc.
  - rewrite app_nil_r. simpl. apply it_stop. unfold parse_enum_element. ybind.
    { ybind; [|cbv iota]. { apply L; [exact Hl|reflexivity|left; reflexivity|]. simpl. apply y_ret. } simpl. apply y_ret. }
    apply y_ret.
  - simpl map. change (flat_map elt_toks (e :: es)) with (elt_toks e ++ flat_map elt_toks es).
    eapply it_next.
    + unfold parse_enum_element. ybind; [ybind|].
      * unfold elt_toks. simpl. apply L; [exact Hl|reflexivity|right; reflexivity|]. simpl. apply y_ret.
      * cbv iota. apply y_weak_l. rewrite <- !app_assoc. simpl ([newline_tok] ++ _).
        ybind.
        -- apply (y_options X [] (map u_anno (ee_annos e)) (map anno_opt (ee_annos e))); [apply annos_items, H2|].
           apply starts_eos; discriminate.
        -- rewrite with_annos by exact H2.
           eapply (y_bind _ _ _ _ (trim_space (ee_comment e)) None (newline_tok :: flat_map elt_toks es ++ close_tok :: rest)).
           ++ unfold parse_trailing_comment, trailing_com. destruct (ee_comment e =?s "") eqn:E.
              ** apply seqb_eq in E. rewrite E. simpl. yget. change (is_type LINE_COMMENT newline_tok) with false. cbv iota. yunget. apply y_ret.
              ** simpl. yget. unfold is_type. simpl. rewrite merge_left_id. apply y_weak_r with (o' := Some (mkTok LINE_COMMENT (" " +++ ee_comment e))).
                 apply y_ret.
           ++ cbv beta. apply y_ret.
      * apply y_ret.
    + specialize (IH None [newline_tok] (or_intror eq_refl) (acc ++ [elt_back e])). rewrite <- app_assoc in IH. exact IH.
Qed.
Lemma elems_enum els com rest : Forall elt_ok els ->
  yields (fun n => type_spec_elements X n) None
       (mkTok SYMBOL "Enum" :: mkTok OPEN_BRACE "{" :: newline_tok :: flat_map elt_toks els ++ close_tok :: com_toks com ++ newline_tok :: rest)
       (mkTE "Enum" None None (map elt_back els) no_options (entry_comment com)) None (newline_tok :: rest).
Proof.
  intros H. apply y_S. cbn [type_spec_elements].
  ybind; [apply y_identifier|]. yget. change (is_type OPEN_ANGLE (mkTok OPEN_BRACE "{")) with false. cbv beta iota.
  change (str_mem "Enum" ["Struct"; "Enum"; "Union"]) with true.
  ybind; [apply y_ret|]. change (is_type OPEN_BRACE (mkTok OPEN_BRACE "{")) with true. cbv beta iota.
  ybind. { unfold parse_trailing_comment. yget. change (is_type LINE_COMMENT newline_tok) with false. cbv iota. yunget. apply y_ret. }
  ybind. { unfold brace_intro. yget. change (is_type NEWLINE newline_tok) with true. cbv iota. apply y_ret. }
  change ("Enum" =?s "Enum") with true. cbv iota. ybind.
  { unfold collect. apply (y_loop (fun n (l : list enumelt) =>
       x <~ parse_enum_element X n ;; Ret (match x with None => inr l | Some a => inl (l ++ [a]) end))).
    exact (y_elements els _ H _ [] (or_introl eq_refl) []). }
  apply y_weak_l. ybind; [apply y_eos|]. rewrite eos_entry. yunget. apply y_ret.
Qed.

(** ** All kinds *)
Definition field_ent (blk : bool) (indent : string) (f : fielddef) : ent :=
  mkEnt ((if blk then [newline_tok] else [])
         ++ (if blk && negb (fd_comment f =?s "") then tokens (u_comment (indent +++ indent_amount) (fd_comment f) 100 false) else []))
    (fd_name f) (fd_spec f) (fd_required f) (fd_annos f) (if blk then None else trailing_com (fd_comment f)) (indent +++ indent_amount).
Lemma field_toks blk indent f :
  tokens (u_field blk indent f (u_spec (fd_spec f) (field_opts f) (indent +++ indent_amount))) = ent_toks (field_ent blk indent f).
Proof.
  unfold u_field, ent_toks, field_ent, entry_toks. cbn [en_pre en_name en_ts en_req en_annos en_com en_indent].
  rewrite !tokens_app. simpl (tokens [_; _; _; _]). rewrite <- app_assoc. f_equal; [destruct blk; reflexivity|].
  f_equal; [destruct (blk && _); reflexivity|]. simpl. do 2 f_equal. f_equal.
  destruct blk; [reflexivity|]. apply trailing_toks.
Qed.
Lemma field_ent_junk blk indent f : Forall junk (en_pre (field_ent blk indent f)).
Proof.
  simpl. apply junk_app; [destruct blk; [constructor; [exact junk_newline|]|]; constructor|].
  destruct (_ && _); [apply comment_junk|constructor].
Qed.
Definition variant_ent (indent : string) (v : variantdef) : ent :=
  let long := (100 <? slen (uv_comment v))%Z in
  mkEnt (if negb (uv_comment v =?s "") && long then tokens (u_comment indent_amount (uv_comment v) 100 false) else [])
    (uv_name v) (uv_spec v) false (uv_annos v) (if long then None else trailing_com (uv_comment v)) (indent +++ indent_amount).
Lemma variant_toks indent v :
  tokens (u_variant v (u_spec (uv_spec v) (map u_anno (uv_annos v)) (indent +++ indent_amount))) = ent_toks (variant_ent indent v).
Proof.
  unfold u_variant, ent_toks, variant_ent, entry_toks. cbn [en_pre en_name en_ts en_req en_annos en_com en_indent].
  rewrite !tokens_app. simpl (tokens [_; _; _]). f_equal; [destruct (_ && _); reflexivity|]. simpl. do 2 f_equal. f_equal.
  destruct (100 <? slen (uv_comment v))%Z; [reflexivity|]. apply trailing_toks.
Qed.
Lemma variant_ent_junk indent v : Forall junk (en_pre (variant_ent indent v)).
Proof. simpl. destruct (_ && _); [apply comment_junk|constructor]. Qed.
Lemma flat_map_map' {A B} (f : A -> list token) (g : A -> B) (h : B -> list token) l :
  (forall x, f x = h (g x)) -> flat_map f l = flat_map h (map g l).
Proof. intros H. induction l as [|x l IH]; [reflexivity|]. simpl. rewrite H, IH. reflexivity. Qed.
Lemma opt_some_list {A} (l : list A) : opt_list (some_list l) = l.
Proof. destruct l; reflexivity. Qed.

Lemma kept_struct ts : ts_type ts = "Struct" ->
  kept ts = te_spec "Struct" (some_list (map (fun f => mkField (fd_name f) (fd_comment f)
    (if braced (ts_type (fd_spec f)) then [] else fd_annos f) (if braced (ts_type (fd_spec f)) then false else fd_required f)
    VNil (kept (fd_spec f))) (ts_fields ts))) [].
Proof. intros T. destruct ts. simpl in *. subst. unfold te_spec. rewrite opt_some_list. reflexivity. Qed.
Lemma kept_union ts : ts_type ts = "Union" ->
  kept ts = te_spec "Union" (some_list (map (fun v => mkField (uv_name v) (uv_comment v)
    (if braced (ts_type (uv_spec v)) then [] else uv_annos v) (if braced (ts_type (uv_spec v)) then false else false)
    VNil (kept (uv_spec v))) (ts_variants ts))) [].
Proof. intros T. destruct ts. simpl in *. subst. unfold te_spec. rewrite opt_some_list. reflexivity. Qed.
Lemma bare_te t fs els : bare (te_spec t fs els) = te_spec t (Some (map bare_field (opt_list fs))) (map bare_elt els).
Proof. reflexivity. Qed.

Lemma short_no_block (fs : list fielddef) : Forall (fun f : fielddef => short_comment 60 (fd_comment f)) fs ->
  existsb (fun f : fielddef => (60 <? slen (fd_comment f))%Z) fs = false.
Proof.
  induction 1 as [|f fs (_ & H) _ IH]; [reflexivity|]. simpl. rewrite IH, orb_false_r. unfold slen.
  apply Z.ltb_ge. lia.
Qed.

Lemma reads_all ts : writable ts -> (braced (ts_type ts) = true -> braced_reads ts) /\ entry_reads ts.
Proof.
  induction ts as [ts IF IV] using typespec_ind'. intros Wr.
  enough (braced (ts_type ts) = true -> braced_reads ts) as H by (split; [exact H|apply entry_any; assumption]).
  intros B. inversion Wr as [ts0 T HW|ts0 T|ts0 T|ts0 T|ts0 T|ts0 T HW|ts0 T HW|ts0 T0 T]; subst ts0;
    try (rewrite T in B; discriminate);
    [|destruct (braced_cases _ B) as [E|[E|E]]; rewrite E in T; simpl in T; repeat (destruct T as [T|T]; [discriminate|]); destruct T| | |
      destruct (braced_cases _ B) as [E|[E|E]]; rewrite E in T; exfalso; apply T; simpl; tauto].
  - (* Enum *)
    intros indent opts com rest. exists None, (map elt_back (ts_elements ts)), (entry_comment com), []. split; [constructor|].
    assert (kept ts = te_spec "Enum" None (ts_elements ts)) as K by (destruct ts; simpl in *; subst; reflexivity).
    rewrite K, T. split; [|split; [|split]].
    + rewrite !bare_te. f_equal. rewrite map_map. reflexivity.
    + intros TD. inversion TD as [ts0 TE _ _]; subst ts0. rewrite (elts_tidy _ TE). reflexivity.
    + intros _. split; [reflexivity|constructor].
    + assert (u_spec ts opts indent = [W "Enum"; Sp " "; P OPEN_BRACE; NL] ++ flat_map (u_element indent) (ts_elements ts) ++ [Sp indent; P CLOSE_BRACE])
        as -> by (destruct ts; simpl in *; subst; reflexivity).
      rewrite !tokens_app, tokens_flat_map. rewrite (flat_map_ext _ elt_toks) by (intros; apply element_toks).
      rewrite <- !app_assoc. exact (elems_enum (ts_elements ts) com rest HW).
  - (* Struct *)
    intros indent opts com rest.
    destruct (ts_fields ts) as [|f0 fr] eqn:F.
    + exists None, [], "", (com_toks com ++ [newline_tok]). rewrite (kept_struct _ T), T, F. split; [|split; [|split; [|split]]].
      * destruct com as [x|]; simpl; [constructor; [right; reflexivity|]|]; (constructor; [exact junk_newline|constructor]).
      * reflexivity.
      * reflexivity.
      * intros H. rewrite H by (split; assumption). split; [reflexivity|]. constructor; [reflexivity|constructor].
      * assert (u_spec ts opts indent = [W "Struct"; NL]) as -> by (destruct ts; simpl in *; subst; reflexivity).
        simpl (tokens _). rewrite <- app_assoc. simpl ([_; _] ++ _).
        apply y_S. cbn [type_spec_elements]. ybind; [apply y_identifier|]. yget.
        change (is_type OPEN_ANGLE newline_tok) with false.
        change (str_mem "Struct" ["Struct"; "Enum"; "Union"]) with true. cbv iota.
        change (is_type OPEN_BRACE newline_tok) with false. cbv iota.
        ybind.
        { yunget. ybind; [apply y_no_options; eexists _, _; split; [reflexivity|]; split; [reflexivity|discriminate]|].
          yget. apply y_ret. }
        change (is_type OPEN_BRACE newline_tok) with false. cbv iota. yunget. apply y_ret.
    + rewrite <- F in *.
      set (blk := existsb (fun f : fielddef => (60 <? slen (fd_comment f))%Z) (ts_fields ts)).
      destruct (elems_fields "Struct" (map (field_ent blk indent) (ts_fields ts)) com rest (or_introl eq_refl)) as (fs & F1 & F2 & F3).
      { rewrite Forall_map. rewrite Forall_forall in *. intros f Hf. destruct (HW f Hf) as (W1 & W2 & W3 & W4).
        split; [apply field_ent_junk|]. split; [exact W2|]. apply (IF f Hf W4). }
      exists (some_list fs), [], (entry_comment com), []. rewrite (kept_struct _ T), T. split; [constructor|]. split; [|split; [|split]].
      * rewrite !bare_te, !opt_some_list, F1, !map_map. reflexivity.
      * intros TD. inversion TD as [ts0 _ TF _]; subst ts0. rewrite F2.
        { unfold te_spec. rewrite !opt_some_list, map_map. f_equal. apply map_ext_in. intros f Hf. unfold ent_field, field_ent. cbn.
          assert (blk = false) as ->. { apply short_no_block. eapply Forall_impl; [|exact TF]. simpl. tauto. }
          rewrite Forall_forall in TF. destruct (TF f Hf) as ((TR & _) & _). rewrite trailing_entry by exact TR. reflexivity. }
        rewrite Forall_map. rewrite Forall_forall in *. intros f Hf. destruct (TF f Hf) as ((TR & _) & TE & TT).
        assert (blk = false) as ->. { apply short_no_block. apply Forall_forall. intros g Hg. apply (TF g Hg). }
        split; [exact TT|]. split; [constructor|]. cbn. intros E. unfold trailing_com. rewrite (TE E). reflexivity.
      * intros _. split; [reflexivity|constructor].
      * assert (u_spec ts opts indent = [W "Struct"; Sp " "; P OPEN_BRACE; NL]
          ++ flat_map (fun f => u_field blk indent f (u_spec (fd_spec f) (field_opts f) (indent +++ indent_amount))) (ts_fields ts)
          ++ [Sp indent; P CLOSE_BRACE]) as ->.
        { unfold blk. clear -T F. destruct ts; simpl in *; subst. reflexivity. }
        rewrite !tokens_app, tokens_flat_map. rewrite (flat_map_map' _ (field_ent blk indent) ent_toks) by (intros; apply field_toks).
        rewrite <- !app_assoc. exact F3.
  - (* Union *)
    intros indent opts com rest.
    destruct (elems_fields "Union" (map (variant_ent indent) (ts_variants ts)) com rest (or_intror eq_refl)) as (fs & F1 & F2 & F3).
    { rewrite Forall_map. rewrite Forall_forall in *. intros v Hv. destruct (HW v Hv) as (W1 & W2 & W3 & W4).
      split; [apply variant_ent_junk|]. split; [exact W2|]. apply (IV v Hv W4). }
    exists (some_list fs), [], (entry_comment com), []. rewrite (kept_union _ T), T. split; [constructor|]. split; [|split; [|split]].
    + rewrite !bare_te, !opt_some_list, F1, !map_map. reflexivity.
    + intros TD. inversion TD as [ts0 _ _ TF]; subst ts0. rewrite F2.
      { unfold te_spec. rewrite !opt_some_list, map_map. f_equal. apply map_ext_in. intros v Hv.
        rewrite Forall_forall in TF. destruct (TF v Hv) as ((TR & TL) & _). unfold ent_field, variant_ent. cbn.
        assert ((100 <? slen (uv_comment v))%Z = false) as -> by (apply Z.ltb_ge; unfold slen; lia).
        rewrite trailing_entry by exact TR. reflexivity. }
      rewrite Forall_map. rewrite Forall_forall in *. intros v Hv. destruct (TF v Hv) as ((TR & TL) & TE & TT).
      assert ((100 <? slen (uv_comment v))%Z = false) as L by (apply Z.ltb_ge; unfold slen; lia).
      split; [exact TT|]. unfold variant_ent. cbn [en_pre en_com en_ts]. rewrite L, andb_false_r. split; [constructor|].
      intros E. unfold trailing_com. rewrite (TE E). reflexivity.
    + intros _. split; [reflexivity|constructor].
    + assert (u_spec ts opts indent = [W "Union"; Sp " "; P OPEN_BRACE; NL]
        ++ flat_map (fun v => u_variant v (u_spec (uv_spec v) (map u_anno (uv_annos v)) (indent +++ indent_amount))) (ts_variants ts)
        ++ [P CLOSE_BRACE]) as ->.
      { clear -T. destruct ts; simpl in *; subst. reflexivity. }
      rewrite !tokens_app, tokens_flat_map. rewrite (flat_map_map' _ (variant_ent indent) ent_toks) by (intros; apply variant_toks).
      rewrite <- !app_assoc. exact F3.
Qed.

(** ** Type definitions *)
Definition td_toks (td : typedef) : list token :=
  mkTok SYMBOL (td_name td) :: tokens (u_spec (td_spec td) [] "") ++ [newline_tok].
Lemma typedef_toks td : tokens (u_typedef dec_text td) = mkTok SYMBOL "type" :: td_toks td.
Proof. unfold u_typedef, td_toks. rewrite !tokens_app. reflexivity. Qed.
Lemma y_simple_def acc name c ts rest : writable ts -> braced (ts_type ts) = false ->
  (forall x, In x (type_allows (ts_type ts)) -> In x acc) ->
  yields (fun n => simple_def X n acc name c (ts0_of ts)) None (tokens (u_options (lims dec_text ts)) ++ newline_tok :: rest)
    (mkTD name c [] (kept ts)) (Some newline_tok) rest.
Proof.
  intros Wr B I. destruct (wlims_fold X dec_text ts false [] Wr B) as (o & Ho & K1 & _ & _ & K4 & _).
  change (with_f false []) with no_options in Ho. unfold simple_def, type_options.
  ybind.
  - ybind.
    + apply (y_options X acc _ (wlims ts)); [apply lims_items; assumption|]. exact (starts_eos OPEN_PAREN None rest ltac:(discriminate) ltac:(discriminate)).
    + rewrite Ho, K1, K4. apply y_ret.
  - unfold end_of_statement. ybind; [ybind; [exact (y_eos c None rest)|]|]; apply y_ret.
Qed.
Lemma kept_type_of ts : ts_type (kept ts) = ts_type ts.
Proof.
  destruct ts as [t ?]. simpl.
  repeat (match goal with |- context [if ?b then _ else _] => destruct b; [reflexivity|] end). reflexivity.
Qed.
Lemma bare_type_of ts : ts_type (bare ts) = ts_type ts.
Proof. destruct ts. reflexivity. Qed.
Lemma merge_nil_r c : merge_comment c "" = trim_space c.
Proof. unfold merge_comment. destruct (c =?s "") eqn:E; [apply seqb_eq in E; subst|]; reflexivity. Qed.

Lemma typedef_reads td c rest : writable_type X dec_text td -> exists td' lead,
  no_comment lead /\ bare_type td' = bare_type (kept_type td)
  /\ td_comment td' = trim_space c
  /\ (tidy (td_spec td) -> td_spec td' = td_spec (kept_type td))
  /\ yields (fun n => parse_type_directive X n c) None (td_toks td ++ rest) td' None (lead ++ rest).
Proof.
  intros (Hn & Hb & Wr & Hu). unfold td_toks. destruct (braced (ts_type (td_spec td))) eqn:B.
  - destruct (proj1 (reads_all _ Wr) B "" [] None rest) as (fs & els & c1 & j & J & K & T & Cm & Y).
    destruct (Cm (fun _ => eq_refl)) as (-> & NJ). simpl in Y. set (ts := td_spec td) in *.
    destruct (braced_cases _ B) as [E|[E|E]].
    + exists (mkTD (td_name td) (trim_space c) [] (te_spec "Enum" None els)), (newline_tok :: j).
      split; [constructor; [reflexivity|exact NJ]|]. unfold kept_type. fold ts. rewrite E. cbn [String.eqb andb].
      change ("Enum" =?s "Union") with false. change ("Enum" =?s "String") with false. cbv iota. cbn [andb].
      assert (opt_list fs = []) as F.
      { rewrite E in K. rewrite bare_te in K. apply (f_equal ts_fields) in K. simpl in K. revert K. clear - E.
        destruct ts; simpl in *; subst. simpl. intros K. destruct (opt_list fs); [reflexivity|discriminate]. }
      rewrite E in K, T. unfold te_spec in K, T. rewrite F in K, T.
      split; [unfold bare_type; simpl td_spec; simpl td_name; rewrite <- K; reflexivity|].
      split; [reflexivity|]. split; [exact T|].
      unfold parse_type_directive. simpl ((_ :: _) ++ rest). ybind; [apply y_identifier|]. apply y_weak_l.
      rewrite <- app_assoc. ybind; [exact Y|]. rewrite E. cbn. rewrite merge_nil_r. apply y_ret.
    + exists (mkTD (td_name td) (trim_space c) [] (te_spec "Struct" fs [])), (newline_tok :: j).
      split; [constructor; [reflexivity|exact NJ]|]. unfold kept_type. fold ts. rewrite E.
      change ("Struct" =?s "Union") with false. change ("Struct" =?s "String") with false. cbv iota. cbn [andb].
      assert (els = []) as F.
      { rewrite E in K. rewrite bare_te in K. apply (f_equal ts_elements) in K. simpl in K. revert K. clear - E.
        destruct ts; simpl in *; subst. simpl. intros K. destruct els; [reflexivity|discriminate]. }
      rewrite E, F in K, T.
      split; [unfold bare_type; simpl td_spec; simpl td_name; rewrite <- K; reflexivity|].
      split; [reflexivity|]. split; [exact T|].
      unfold parse_type_directive. simpl ((_ :: _) ++ rest). ybind; [apply y_identifier|]. apply y_weak_l.
      rewrite <- app_assoc. ybind; [exact Y|]. rewrite E. cbn. rewrite merge_nil_r.
      ybind; [apply y_no_options; eexists _, _; split; [reflexivity|]; split; [reflexivity|discriminate]|].
      apply y_ret.
    + assert (map bare_field (opt_list fs) = map (fun v => mkField (uv_name v) "" (if braced (ts_type (uv_spec v)) then [] else uv_annos v)
          (if braced (ts_type (uv_spec v)) then false else false) VNil (bare (kept (uv_spec v)))) (ts_variants ts)) as F.
      { rewrite E, (kept_union _ E) in K. rewrite !bare_te, opt_some_list, map_map in K. apply (f_equal ts_fields) in K. exact K. }
      assert (map (fun f => variant_of (fd_name f) (ts_type (fd_spec f))) (opt_list fs)
              = map (fun v => mkVariant (uv_name v) "" [] (ts_of (ts_type (uv_spec v)))) (ts_variants ts)) as V.
      { revert F. generalize (ts_variants ts). induction (opt_list fs) as [|f l IH]; intros [|v vs] F; try discriminate; [reflexivity|].
        simpl in F. injection F as F1 F2 F3 F0 F4 F5. simpl. rewrite (IH _ F5). unfold variant_of. rewrite F1.
        apply (f_equal ts_type) in F4. rewrite !bare_type_of, kept_type_of in F4. rewrite F4. reflexivity. }
      exists (mkTD (td_name td) (trim_space c) [] (td_spec (kept_type td))), j.
      split; [exact NJ|]. unfold kept_type. fold ts. rewrite E. change ("Union" =?s "Union") with true. cbv iota.
      split; [reflexivity|]. split; [reflexivity|]. split; [reflexivity|].
      unfold parse_type_directive. simpl ((_ :: _) ++ rest). ybind; [apply y_identifier|]. apply y_weak_l.
      rewrite <- app_assoc. ybind; [exact Y|]. rewrite E. cbn. rewrite merge_nil_r.
      ybind. { unfold type_options. ybind; [apply y_no_options; eexists _, _; split; [reflexivity|]; split; [reflexivity|discriminate]|]. apply y_ret. }
      destruct fs as [l|]; [|exfalso; apply (Hu E); simpl in F; destruct (ts_variants ts); [reflexivity|discriminate]].
      cbv iota. simpl in V. ybind; [apply y_ret|]. rewrite V.
      apply y_weak_r with (o' := Some newline_tok).
      ybind; [unfold end_of_statement; ybind; [exact (y_eos _ None _)|apply y_ret]|]. apply y_ret.
  - exists (mkTD (td_name td) (trim_space c) [] (td_spec (kept_type td))), [].
    split; [constructor|]. split; [reflexivity|]. split; [reflexivity|]. split; [reflexivity|].
    rewrite (u_spec_flat _ _ _ _ B), tokens_app. rewrite <- !app_assoc. simpl ((_ :: _) ++ _).
    unfold parse_type_directive. ybind; [apply y_identifier|]. apply y_weak_l. rewrite <- !app_assoc. ybind.
    { apply elems_flat; [exact B|]. apply starts_options; [discriminate|].
      exact (starts_eos OPEN_ANGLE None rest ltac:(discriminate) ltac:(discriminate)). }
    simpl ([newline_tok] ++ rest). apply y_weak_r with (o' := Some newline_tok).
    set (ts := td_spec td) in *. cbn [te_comment te_of te_type te_params]. rewrite merge_nil_r. unfold kept_type. fold ts.
    pose proof (fun acc => y_simple_def acc (td_name td) (trim_space c) ts rest Wr B) as SD.
    unfold type_allows in SD.
    simpl in Hb.
    repeat (destruct Hb as [Hb|Hb]; [symmetry in Hb; try (rewrite Hb in B; discriminate B)|]); [..|destruct Hb].
    all: rewrite Hb; cbn -[simple_def type_options kept uuid_pattern regex_uuid u_options tokens].
    all: try (match goal with |- yields (fun n => simple_def _ n ?acc _ _ _) _ _ _ _ _ =>
        assert (ts0_of ts = ts_of (ts_type ts)) as E0 by (unfold ts0_of; rewrite Hb; reflexivity);
        rewrite <- Hb; rewrite <- E0; apply (SD acc); rewrite Hb; simpl; tauto end).
    + assert (ts0_of ts = ts_of "String") as E0 by (unfold ts0_of; rewrite Hb; reflexivity).
      rewrite <- E0. rewrite Hb in SD. ybind; [apply SD; simpl; tauto|]. cbn [td_spec].
      assert (ts_pattern (kept ts) = ts_pattern ts /\ ts_values (kept ts) = some_values (ts_values ts)
        /\ ts_minsize (kept ts) = ts_minsize ts /\ ts_maxsize (kept ts) = ts_maxsize ts /\ ts_reference (kept ts) = "")
        as (-> & -> & -> & -> & ->) by (clear - Hb; destruct ts; simpl in *; subst; repeat split; reflexivity).
      change regex_uuid with uuid_pattern. destruct (ts_pattern ts =?s uuid_pattern); apply y_ret.
    + assert (lims dec_text ts = []) as -> by (unfold lims; rewrite Hb; reflexivity). simpl (tokens _).
      ybind. { unfold type_options. ybind; [apply y_no_options; eexists _, _; split; [reflexivity|]; split; [reflexivity|discriminate]|]. apply y_ret. }
      ybind; [apply y_ret|].
      ybind; [unfold end_of_statement; ybind; [exact (y_eos _ None _)|apply y_ret]|]. apply y_ret'. cbn.
      clear - Hb. destruct ts; simpl in *; subst. reflexivity.
    + ybind; [apply y_ret|]. cbv beta iota. assert (ts0_of ts = ts_items_keys "Array" (ts_items ts) "" "" "") as <- by (unfold ts0_of; rewrite Hb; reflexivity).
      rewrite Hb in SD. apply SD. simpl. tauto.
    + ybind; [apply y_ret|]. cbv beta iota. assert (ts0_of ts = ts_items_keys "Map" (ts_items ts) (ts_keys ts) "" "") as <- by (unfold ts0_of; rewrite Hb; reflexivity).
      rewrite Hb in SD. apply SD. simpl. tauto.
Qed.
End U.
