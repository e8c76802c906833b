(** C23, C24, C27-C31, C45: reading SADL text. *)
From Verif Require Import GoStr Outcome Value Schema Scalars Time Model Misc ParserValidate Scan Parser
  SpecTime SpecModel SpecMisc SpecPV SpecParser ModelFacts ValidateFacts PVFacts Demo PropsValidate Lex
  FileFacts InvFacts InvNames ParsedFacts.

(** Examples: no files, and a text with types, constraints, an action and examples. *)
Definition no_files : penv := mkEnv (fun _ => None) "" "" (fun s => s) "0".
Definition demo_lines : list string :=
  [ "/* a */ name demo";
    "type Coord Decimal (min=5, max=100)";
    "type Point Struct {";
    "  x Coord (required) // the first";
    "  y Coord (default=5)";
    "  tags Array<String>";
    "  box Struct {"; "    w Coord"; "  }";
    "}";
    "type Color Enum {"; "  RED"; "  GREEN"; "}";
    "type Oops Struct {"; "  message String"; "}";
    "example Point { ""x"": 5 }";
    "http PUT ""/points/{id}?dry={dry}"" (operation=putPoint) {";
    "  id String";
    "  dry Bool";
    "  tag String (header=""If-Match"")";
    "  body Point";
    "  expect 200 { result Point";
    "    etag String (header=""ETag"")"; "  }";
    "  except 404 Oops";
    "}";
    "example PutPointRequest { ""id"": ""a"", ""tag"": ""t"", ""body"": { ""x"": 5 } }" ].
Definition demo_text : list token := src demo_lines.

Lemma symbols_by_test toks : forallb (fun t => negb (is_type SYMBOL t) || negb (tk_text t =?s "")) toks = true ->
  symbols_have_text toks.
Proof.
  intros H s Hs E. rewrite forallb_forall in H. specialize (H _ Hs). subst. discriminate H.
Qed.
Lemma absent_by_test w toks : forallb (fun t => negb (is_type SYMBOL t) || negb (tk_text t =?s w)) toks = true ->
  word_absent w toks.
Proof.
  intros H Hs. rewrite forallb_forall in H. specialize (H _ Hs). simpl in H. rewrite seqb_refl in H. discriminate H.
Qed.
Lemma no_files_text : files_have_text no_files.
Proof. intros f toks H. discriminate H. Qed.
Example demo_text_parses : match parse_sadl_string demo_ext no_files 0 9 demo_text with Ok m => length (sc_types (m_schema m)) = 4 | _ => False end.
Proof. vm_compute. reflexivity. Qed.

(** ** C23 *)
(** Reading a text without the word [include] always returns. *)
Theorem C23_reading_terminates_partial : forall X E d toks,
  word_absent "include" toks -> read_string X E d toks <> OutOfFuel.
Proof. exact read_string_no_include. Qed.
Print Assumptions C23_reading_terminates_partial.
(** With includes: if no file includes, directly or indirectly, itself. *)
Theorem C23_reading_files_terminates_partial : forall X E (rank : string -> nat),
  (forall f toks g, e_files E f = Some toks -> In (mkTok SYMBOL "include") toks -> In (mkTok STRING g) toks ->
     rank g < rank f) ->
  forall d f, rank f < d -> read_file X E d f <> OutOfFuel.
Proof. exact read_file_ranked. Qed.
Print Assumptions C23_reading_files_terminates_partial.
(** The bounds of the model are not part of the answer. *)
Theorem C23_answer_unique : forall X E d d' v v' toks, d <= d' -> v <= v' ->
  parse_sadl_string X E d v toks <> OutOfFuel -> parse_sadl_string X E d' v' toks = parse_sadl_string X E d v toks.
Proof. exact parse_string_sooner. Qed.
Print Assumptions C23_answer_unique.
(** Parsing, that is reading and checking, returns for texts in which the words [include], [Union]
    and [List] do not occur.  Each of the three can make it run forever: see the theorems below. *)
Theorem C23_parse_terminates_partial : forall X E d toks,
  symbols_have_text toks -> (forall w, In w ["include"; "Union"; "List"] -> word_absent w toks) ->
  exists N, forall v, N <= v -> parse_sadl_string X (with_files E (fun _ => None)) d v toks <> OutOfFuel.
Proof.
  intros X E d toks HT HW. apply parse_finishes.
  - intros f l H. discriminate H.
  - exact HT.
  - intros f l w H. discriminate H.
  - intros w Hw. apply HW. simpl in *. tauto.
  - apply read_string_no_include. apply HW. simpl. auto.
Qed.
Print Assumptions C23_parse_terminates_partial.
(** Texts with includes: if reading returns, so does checking. *)
Theorem C23_parse_files_terminates_partial : forall X E d toks,
  files_have_text E -> symbols_have_text toks ->
  (forall f ft w, e_files E f = Some ft -> In w ["Union"; "List"] -> word_absent w ft) ->
  (forall w, In w ["Union"; "List"] -> word_absent w toks) ->
  read_string X E d toks <> OutOfFuel ->
  exists N, forall v, N <= v -> parse_sadl_string X E d v toks <> OutOfFuel.
Proof. exact parse_finishes. Qed.
Print Assumptions C23_parse_files_terminates_partial.
Example C23_met : symbols_have_text demo_text /\ forall w, In w ["include"; "Union"; "List"] -> word_absent w demo_text.
Proof.
  split; [apply symbols_by_test; vm_compute; reflexivity|]. intros w Hw. apply absent_by_test.
  simpl in Hw. destruct Hw as [<-|[<-|[<-|[]]]]; vm_compute; reflexivity.
Qed.
(** A file that includes itself is read forever. *)
Theorem C23_include_cycle_refuted : exists E f, forall X d v,
  read_file X E d f = OutOfFuel /\ parse_sadl_file X E d v f = OutOfFuel.
Proof.
  exists (mkEnv (fun _ => Some (lex "include ""a.sadl""")) "" "" (fun s => s) "0"), "a.sadl". intros X d v.
  assert (R : read_file X (mkEnv (fun _ => Some (lex "include ""a.sadl""")) "" "" (fun s => s) "0") d "a.sadl" = OutOfFuel)
    by (apply (self_include X _ "a.sadl" []); reflexivity).
  split; [exact R|]. unfold parse_sadl_file. rewrite R. reflexivity.
Qed.
Print Assumptions C23_include_cycle_refuted.

(** Two texts without include on which checking never ends: any example of a union type,
    and a type called [List] defined as [List]. *)
Definition union_text : list token := src ["type U Union<String,Int32>"; "example U ""x"""].
Definition list_text : list token := src ["type List List"; "example List ""x"""].
Definition text_schema (toks : list token) : schema :=
  match read_string demo_ext no_files 0 toks with Ok m => m_schema m | _ => schema_of [] [] end.
Definition list_spec : typespec := mkTS "List" "" None None None [] [] None None "Any" "" [] "" "" "".
Lemma list_alias_diverges X fuel : forall ctx v,
  validate_spec X (model_of (text_schema list_text)) fuel ctx list_spec v = OutOfFuel.
Proof.
  induction fuel as [|f IH]; intros ctx v; [reflexivity|].
  cbn [validate_spec]. rewrite step_ref by (simpl; intuition discriminate).
  change (find_type (model_of (text_schema list_text)) (ts_type list_spec)) with (Some (tdef "List" list_spec)).
  exact (IH ctx v).
Qed.
Theorem C23_parse_terminates_refuted : forall toks, In toks [union_text; list_text] ->
  word_absent "include" toks /\ forall X d v, parse_sadl_string X no_files d v toks = OutOfFuel.
Proof.
  intros toks [<-|[<-|[]]]; (split; [apply absent_by_test; vm_compute; reflexivity|]); intros X d v.
  - unfold parse_sadl_string. replace (read_string X no_files d union_text) with (@Ok perror _ (model_of (text_schema union_text)))
      by (vm_compute; reflexivity).
    pose proof (declared_union_diverges X (text_schema union_text) (model_of (text_schema union_text)) ltac:(vm_compute; reflexivity)
      "U" (ts_union ["String"; "Int32"])) as H.
    specialize (H ltac:(eexists; split; [right; split; [left; reflexivity|reflexivity]|reflexivity]) eq_refl v [] (VPStr "x")).
    unfold check. replace (parser_validate X (model_of (text_schema union_text)) v) with (@OutOfFuel pverror unit); [reflexivity|].
    unfold validate, validate_named in H.
    change (find_type (model_of (text_schema union_text)) "U") with (Some (tdef "U" (ts_union ["String"; "Int32"]))) in H.
    change (parser_validate X (model_of (text_schema union_text)) v) with
      (_ <- (_ <- conforms X (model_of (text_schema union_text)) v (ts_union ["String"; "Int32"]) (VPStr "x") ;; @Ok pverror unit tt) ;; @Ok pverror unit tt).
    assert (H' : validate_spec X (model_of (text_schema union_text)) v [] (ts_union ["String"; "Int32"]) (VPStr "x") = OutOfFuel) by exact H.
    unfold conforms. rewrite H'. reflexivity.
  - unfold parse_sadl_string. replace (read_string X no_files d list_text) with (@Ok perror _ (model_of (text_schema list_text)))
      by (vm_compute; reflexivity).
    unfold check. replace (parser_validate X (model_of (text_schema list_text)) v) with (@OutOfFuel pverror unit); [reflexivity|].
    change (parser_validate X (model_of (text_schema list_text)) v) with
      (_ <- (_ <- conforms X (model_of (text_schema list_text)) v list_spec (VPStr "x") ;; @Ok pverror unit tt) ;; @Ok pverror unit tt).
    unfold conforms. rewrite list_alias_diverges. reflexivity.
Qed.
Print Assumptions C23_parse_terminates_refuted.

(** ** C24 *)
Theorem C24_reading_never_crashes_partial : forall X E d toks,
  (forall f ft, e_files E f = Some ft -> word_absent "operation" ft) -> word_absent "operation" toks ->
  read_string X E d toks <> Panic.
Proof. exact read_string_no_crash. Qed.
Print Assumptions C24_reading_never_crashes_partial.
(** The two ways to crash: a text ending inside an operation, and an example for the response of an
    action without [expect]. *)
Theorem C24_parse_crashes_partial : forall X E, files_have_text E -> forall d v toks, symbols_have_text toks ->
  parse_sadl_string X E d v toks = Panic ->
  read_string X E d toks = Panic
  \/ exists m ex, read_string X E d toks = Ok m /\ In ex (sc_examples (m_schema m)) /\ nil_response (m_schema m) ex.
Proof. exact parse_string_panic. Qed.
Print Assumptions C24_parse_crashes_partial.
Example C24_met : word_absent "operation" (src ["type A String"; "example A ""x"""])
  /\ exists m, parse_sadl_string demo_ext no_files 0 9 (src ["type A String"; "example A ""x"""]) = Ok m.
Proof. split; [apply absent_by_test; vm_compute; reflexivity|eexists; vm_compute; reflexivity]. Qed.
Definition response_text : list token :=
  src ["http GET ""/foo"" (operation=getFoo) {"; "  except 404 String"; "}"; "example GetFooResponse { }"].
Theorem C24_parse_crashes_refuted : forall toks, In toks [lex "operation o { inputs"; response_text] ->
  forall X d v, parse_sadl_string X no_files d v toks = Panic.
Proof. intros toks [<-|[<-|[]]] X d [|v]; vm_compute; reflexivity. Qed.
Print Assumptions C24_parse_crashes_refuted.

(** ** C45 *)
(** [reads n st]: the next [n] answers of the scanner ([None] at the end of the text).  Pushing a token
    back undoes reading it. *)
Theorem C45_pushback : forall st t st', get_token st = (Some t, st') ->
  forall n, reads n (unget_token st') = reads n st.
Proof. exact unget_reads. Qed.
Print Assumptions C45_pushback.
(** Without push-back the tokens are those of the text, except the block comments. *)
Theorem C45_tokens_in_order : forall toks l, same_but_block_comments toks l ->
  (forall x, ~ In (mkTok BLOCK_COMMENT x) l) ->
  forall n, reads n (start toks) = map Some (firstn n l) ++ repeat None (n - length l).
Proof. exact reads_text. Qed.
Print Assumptions C45_tokens_in_order.
Example C45_met : let st := start demo_text in
  exists t st', get_token st = (Some t, st') /\ t = mkTok SYMBOL "name"
  /\ reads 2 st' = [Some (mkTok SYMBOL "demo"); Some (mkTok NEWLINE (chr 10))]
  /\ reads 2 (unget_token st') = [Some (mkTok SYMBOL "name"); Some (mkTok SYMBOL "demo")].
Proof. do 2 eexists. split; [vm_compute; reflexivity|]. repeat split; vm_compute; reflexivity. Qed.
(** At the end of the text there is nothing to push back: the token before it comes back instead. *)
Theorem C45_pushback_at_end_refuted : exists st st', get_token st = (None, st') /\ reads 1 st = [None]
  /\ reads 1 (unget_token st') <> reads 1 st.
Proof.
  exists (snd (get_token (start [mkTok SYMBOL "a"]))). eexists. split; [vm_compute; reflexivity|].
  split; [vm_compute; reflexivity|]. vm_compute. discriminate.
Qed.
Print Assumptions C45_pushback_at_end_refuted.
Theorem C45_block_comments : forall X E fs,
  (forall f, match e_files E f, fs f with
             | Some l, Some l' => same_but_block_comments l l' | None, None => True | _, _ => False end) ->
  forall d v l l', same_but_block_comments l l' ->
  parse_sadl_string X E d v l = parse_sadl_string X (with_files E fs) d v l'.
Proof. exact parse_sadl_string_block. Qed.
Print Assumptions C45_block_comments.
Example C45_met2 : same_but_block_comments (lex "/* a */ type /* b */ A String") (lex "type A String /* c */")
  /\ exists m, parse_sadl_string demo_ext no_files 0 9 (lex "/* a */ type /* b */ A String") = Ok m.
Proof.
  split; [|eexists; vm_compute; reflexivity]. vm_compute. apply sb_left, sb_same, sb_left, sb_same, sb_same, sb_right, sb_nil.
Qed.

(** ** Models that parsing returns *)
Section Parsed.
Variable X : ext.
Variable E : penv.
Hypothesis FE : files_have_text E.
Variables (d v : nat) (m : model).
Hypothesis HP : (exists toks, symbols_have_text toks /\ parse_sadl_string X E d v toks = Ok m)
  \/ exists f, parse_sadl_file X E d v f = Ok m.
Let sch := m_schema m.
Lemma parsed_ok : parsed X m.
Proof.
  destruct HP as [(toks & HT & H)|(f & H)]; [exact (parse_string_parsed X E FE d v toks m HT H)|exact (parse_file_parsed X E FE d v f m H)].
Qed.
Lemma parsed_written : written_schema sch. Proof. apply parsed_ok. Qed.
Lemma parsed_checked : model_ok X sch. Proof. apply parsed_ok. Qed.
Lemma parsed_input h p : In h (sc_http sch) -> In p (h_inputs h) -> recorded_source (h_path h) p.
Proof. intros Hh Hp. destruct parsed_written as (_ & W & _). apply (W h Hh). exact Hp. Qed.
Lemma parsed_actions h : In h (sc_http sch) ->
  In (h_method h) ["POST"; "GET"; "PUT"; "DELETE"; "PATCH"; "HEAD"; "OPTIONS"]
  /\ at_most_one body_input (h_inputs h)
  /\ (~ In (h_method h) ["POST"; "PUT"; "PATCH"] -> none body_input (h_inputs h))
  /\ all_defined sch (h_inputs h)
  /\ NoDup (map xc_type (h_exceptions h))
  /\ forall x, h_expected h = Some x ->
       at_most_one body_output (xp_outputs x)
       /\ (xp_status x = 204%Z \/ xp_status x = 304%Z -> none body_output (xp_outputs x))
       /\ all_defined sch (xp_outputs x)
       /\ forall e, In e (h_exceptions h) -> defined sch (xc_type e).
Proof.
  intro Hh. destruct parsed_checked as (_ & _ & K). destruct (K h Hh) as (_ & H1 & H2 & H3 & H4).
  destruct parsed_written as (_ & W & _). destruct (W h Hh) as (W1 & _ & _ & W4 & _).
  repeat (split; [assumption|]). intros x Hx. destruct (H4 x Hx) as (Ha & Hb & Hc & Hd). auto.
Qed.
Lemma parsed_names :
  (forall td, In td (sc_types sch) -> ts_type (td_spec td) = "List" \/ defined sch (ts_type (td_spec td))) /\
  (forall td f, In td (sc_types sch) -> ts_type (td_spec td) = "Struct" -> In f (ts_fields (td_spec td)) ->
     defined sch (ts_type (fd_spec f))
     /\ (ts_type (fd_spec f) = "Array" -> defined_or_none sch (ts_items (fd_spec f)))
     /\ (ts_type (fd_spec f) = "Map" -> defined_or_none sch (ts_keys (fd_spec f)) /\ defined_or_none sch (ts_items (fd_spec f)))) /\
  (forall td, In td (sc_types sch) ->
     (ts_type (td_spec td) = "Array" -> defined sch (ts_items (td_spec td)))
     /\ (ts_type (td_spec td) = "Map" -> defined sch (ts_items (td_spec td))
           /\ (ts_items (td_spec td) <> "Any" -> defined sch (ts_keys (td_spec td))))
     /\ (ts_type (td_spec td) = "UnitValue" -> defined sch (ts_value (td_spec td)) /\ defined sch (ts_unit (td_spec td)))
     /\ (In (ts_type (td_spec td)) ["String"; "UUID"] -> defined_or_none sch (ts_reference (td_spec td)))) /\
  (forall h p, In h (sc_http sch) -> In p (h_inputs h) -> defined sch (ts_type (fd_spec (ps_field p)))) /\
  (forall h x p, In h (sc_http sch) -> h_expected h = Some x -> In p (xp_outputs x) -> defined sch (ts_type (fd_spec (ps_field p)))).
Proof.
  destruct parsed_ok as (W & Nm & K).
  destruct (parser_validate_iff X sch m Nm (written_values _ W) (written_named _ W)) as (_ & PV). specialize (PV K).
  split.
  - intros td Ht. destruct W as (W1 & _). destruct (W1 td Ht) as (_ & [<-|Hb] & _); [left; reflexivity|right].
    exists (ts_of (ts_type (td_spec td))), (mkTD (ts_type (td_spec td)) "" [] (ts_of (ts_type (td_spec td)))).
    split; [left; split; [exact Hb|reflexivity]|reflexivity].
  - destruct (accepted_names X sch m Nm (written_values _ W) (written_named _ W) PV) as (A & B). split; [exact A|]. split; [exact B|].
    destruct K as (_ & _ & K). split; intros h; [intros p Hh Hp|intros x p Hh Hx Hp]; destruct (K h Hh) as (_ & H1 & _ & _ & H4); [exact (H1 p Hp)|].
    exact (proj1 (H4 x Hx) p Hp).
Qed.
End Parsed.

(** *** C27 *)
(** Each input is recorded as header, path, query or body, by the rule. *)
Theorem C27_parsed_sources : forall X E, files_have_text E -> forall d v m,
  (exists toks, symbols_have_text toks /\ parse_sadl_string X E d v toks = Ok m) \/ (exists f, parse_sadl_file X E d v f = Ok m) ->
  forall h p, In h (sc_http (m_schema m)) -> In p (h_inputs h) -> recorded_source (h_path h) p.
Proof. exact parsed_input. Qed.
Print Assumptions C27_parsed_sources.
(** The four cases are told apart by the record, unless the query key is empty: such a parameter cannot be told
    from a body and counts as one. *)
Definition empty_key_text : list token := src ["http POST ""/a?={x}"" (operation=a) {"; "  x String"; "  expect 204"; "}"].
Lemma no_char_by_test c s : contains (String c "") s = false -> no_char c s.
Proof.
  intros H (a & b & E). assert (T : contains (String c "") s = true) by (apply contains_spec; exists a, b; exact E). congruence.
Qed.
Ltac absent := apply no_char_by_test; vm_compute; reflexivity.
Theorem C27_empty_key_refuted : exists m h p, parse_sadl_string demo_ext no_files 0 9 empty_key_text = Ok m
  /\ In h (sc_http (m_schema m)) /\ In p (h_inputs h)
  /\ in_query (h_path h) (fd_name (ps_field p)) "" /\ body_input p.
Proof.
  do 3 eexists. split; [vm_compute; reflexivity|]. split; [left; reflexivity|]. split; [left; reflexivity|]. split.
  - exists "={x}", [], "={x}". simpl. split; [exists "/a"; split; [absent|reflexivity]|].
    split; [constructor; absent|split; [|intros x k []]]. split; [absent|]. split; [absent|left; reflexivity].
  - repeat split.
Qed.
Print Assumptions C27_empty_key_refuted.

(** *** C28 *)
Theorem C28_parsed_actions_partial : forall X E, files_have_text E -> forall d v m,
  (exists toks, symbols_have_text toks /\ parse_sadl_string X E d v toks = Ok m) \/ (exists f, parse_sadl_file X E d v f = Ok m) ->
  forall h, In h (sc_http (m_schema m)) ->
  In (h_method h) ["POST"; "GET"; "PUT"; "DELETE"; "PATCH"; "HEAD"; "OPTIONS"]
  /\ at_most_one body_input (h_inputs h)
  /\ (~ In (h_method h) ["POST"; "PUT"; "PATCH"] -> none body_input (h_inputs h))
  /\ all_defined (m_schema m) (h_inputs h)
  /\ NoDup (map xc_type (h_exceptions h))
  /\ forall x, h_expected h = Some x ->
       at_most_one body_output (xp_outputs x)
       /\ (xp_status x = 204%Z \/ xp_status x = 304%Z -> none body_output (xp_outputs x))
       /\ all_defined (m_schema m) (xp_outputs x)
       /\ forall e, In e (h_exceptions h) -> defined (m_schema m) (xc_type e).
Proof. exact parsed_actions. Qed.
Print Assumptions C28_parsed_actions_partial.
(** What is missing: the exception types of an action without [expect]. *)
Definition lost_exception_text : list token := src ["http GET ""/a"" (operation=a) {"; "  except 404 Nowhere"; "}"].
Theorem C28_parsed_exceptions_refuted : exists m h e, (forall X d v, parse_sadl_string X no_files d v lost_exception_text = Ok m)
  /\ In h (sc_http (m_schema m)) /\ In e (h_exceptions h) /\ ~ defined (m_schema m) (xc_type e).
Proof.
  do 3 eexists. split; [intros X d [|v]; vm_compute; reflexivity|]. split; [left; reflexivity|]. split; [left; reflexivity|].
  intros (ts & td & [[H _]|[[] _]] & _). simpl in H. intuition discriminate.
Qed.
Print Assumptions C28_parsed_exceptions_refuted.

(** *** C29 *)
Theorem C29_parsed_names_partial : forall X E, files_have_text E -> forall d v m,
  (exists toks, symbols_have_text toks /\ parse_sadl_string X E d v toks = Ok m) \/ (exists f, parse_sadl_file X E d v f = Ok m) ->
  let sch := m_schema m in
  (forall td, In td (sc_types sch) -> ts_type (td_spec td) = "List" \/ defined sch (ts_type (td_spec td))) /\
  (forall td f, In td (sc_types sch) -> ts_type (td_spec td) = "Struct" -> In f (ts_fields (td_spec td)) ->
     defined sch (ts_type (fd_spec f))
     /\ (ts_type (fd_spec f) = "Array" -> defined_or_none sch (ts_items (fd_spec f)))
     /\ (ts_type (fd_spec f) = "Map" -> defined_or_none sch (ts_keys (fd_spec f)) /\ defined_or_none sch (ts_items (fd_spec f)))) /\
  (forall td, In td (sc_types sch) ->
     (ts_type (td_spec td) = "Array" -> defined sch (ts_items (td_spec td)))
     /\ (ts_type (td_spec td) = "Map" -> defined sch (ts_items (td_spec td))
           /\ (ts_items (td_spec td) <> "Any" -> defined sch (ts_keys (td_spec td))))
     /\ (ts_type (td_spec td) = "UnitValue" -> defined sch (ts_value (td_spec td)) /\ defined sch (ts_unit (td_spec td)))
     /\ (In (ts_type (td_spec td)) ["String"; "UUID"] -> defined_or_none sch (ts_reference (td_spec td)))) /\
  (forall h p, In h (sc_http sch) -> In p (h_inputs h) -> defined sch (ts_type (fd_spec (ps_field p)))) /\
  (forall h x p, In h (sc_http sch) -> h_expected h = Some x -> In p (xp_outputs x) -> defined sch (ts_type (fd_spec (ps_field p)))).
Proof. exact parsed_names. Qed.
Print Assumptions C29_parsed_names_partial.
(** What is missing: texts that are accepted though a name in them is not defined. *)
Definition lost_texts : list (list token) :=
  [ src ["type A List"];
    src ["type A Union<Nowhere>"];
    src ["type A Struct {"; "  f Struct {"; "    g Nowhere"; "  }"; "}"];
    src ["type A Struct {"; "  f UnitValue<Decimal,Nowhere>"; "}"];
    src ["type A Struct {"; "  f String (reference=Nowhere)"; "}"];
    src ["type A Map<Nowhere,Any>"];
    src ["operation op {"; "  inputs {"; "    f Nowhere"; "  }"; "}"] ].
Definition type1 (sch : schema) : typedef := hd (tdef "" (ts_of "")) (sc_types sch).
Definition field1 (ts : typespec) : fielddef := hd (fld "" false (ts_of "")) (ts_fields ts).
Theorem C29_parsed_names_refuted : forall toks, In toks lost_texts ->
  exists m n, (forall X d v, parse_sadl_string X no_files d v toks = Ok m)
  /\ In n ["Nowhere"; "List"] /\ mentions (m_schema m) n /\ ~ defined (m_schema m) n.
Proof.
  intros toks H. simpl in H.
  repeat (destruct H as [<-|H]; [|]); [| | | | | | |contradiction]; do 2 eexists;
    (split; [intros X d [|v]; vm_compute; reflexivity|]); [split; [right; left; reflexivity|] | | | | | | ];
    try (split; [left; reflexivity|]);
    (split; [|intros (ts & td & [[Hd _]|[Hi Hd]] & _); simpl in *; intuition (subst; discriminate)]).
  - match goal with |- mentions ?S _ => exact (mn_alias S (type1 S) (or_introl eq_refl)) end.
  - match goal with |- mentions ?S _ => exact (mn_variant S (type1 S) (hd (mkVariant "" "" [] (ts_of "")) (ts_variants (td_spec (type1 S)))) (or_introl eq_refl) eq_refl (or_introl eq_refl)) end.
  - match goal with |- mentions ?S _ => exact (mn_nested S (type1 S) (field1 (td_spec (type1 S))) (field1 (fd_spec (field1 (td_spec (type1 S)))))
      (or_introl eq_refl) eq_refl (or_introl eq_refl) eq_refl (or_introl eq_refl)) end.
  - match goal with |- mentions ?S _ => exact (mn_unit S (type1 S) (field1 (td_spec (type1 S))) (or_introl eq_refl) eq_refl (or_introl eq_refl) eq_refl) end.
  - match goal with |- mentions ?S _ => refine (mn_reference S (type1 S) (field1 (td_spec (type1 S))) (or_introl eq_refl) eq_refl (or_introl eq_refl) ltac:(discriminate)) end.
  - match goal with |- mentions ?S _ => exact (mn_key S (type1 S) (or_introl eq_refl) eq_refl) end.
  - match goal with |- mentions ?S _ => exact (mn_operation S (hd (mkOp "" "" [] [] [] []) (sc_operations S)) (hd (fld "" false (ts_of "")) (op_inputs (hd (mkOp "" "" [] [] [] []) (sc_operations S)))) (or_introl eq_refl) (or_introl eq_refl)) end.
Qed.
Print Assumptions C29_parsed_names_refuted.

(** *** C30 *)
Theorem C30_parsed_defaults : forall X E, files_have_text E -> forall d v m,
  (exists toks, symbols_have_text toks /\ parse_sadl_string X E d v toks = Ok m) \/ (exists f, parse_sadl_file X E d v f = Ok m) ->
  forall td, In td (sc_types (m_schema m)) ->
  (ts_values (td_spec td) = None \/ ts_pattern (td_spec td) = "")
  /\ forall f, In f (ts_fields (td_spec td)) ->
     (fd_default f <> VNil -> fd_required f = false /\ accepts X (m_schema m) (fd_spec f) (fd_default f))
     /\ (ts_values (fd_spec f) = None \/ ts_pattern (fd_spec f) = "").
Proof.
  intros X E FE d v m HP td Ht. destruct (parsed_checked X E FE d v m HP) as (K & _).
  destruct (parsed_written X E FE d v m HP) as (W & _). destruct (W td Ht) as (_ & _ & L & (P & _) & _).
  destruct (K td Ht) as (K1 & _ & _ & _ & K5 & _). split.
  - destruct L as [(L & _)|(_ & L & _)]; [|right; exact L].
    destruct (ts_values (td_spec td)) eqn:V; [|left; reflexivity]. right.
    assert (T : ts_type (td_spec td) = "String") by (apply L; right; discriminate).
    destruct (K5 T) as ([F|F] & _); [congruence|exact F].
  - intros f Hf. assert (S : ts_type (td_spec td) = "Struct") by (apply P; intros F; rewrite F in Hf; destruct Hf).
    destruct (K1 S f Hf) as (_ & _ & _ & A & B). split; assumption.
Qed.
Print Assumptions C30_parsed_defaults.
(** *** C31 *)
Theorem C31_parsed_examples : forall X E, files_have_text E -> forall d v m,
  (exists toks, symbols_have_text toks /\ parse_sadl_string X E d v toks = Ok m) \/ (exists f, parse_sadl_file X E d v f = Ok m) ->
  forall ex, In ex (sc_examples (m_schema m)) -> example_ok X (m_schema m) ex.
Proof. intros X E FE d v m HP ex. apply (parsed_checked X E FE d v m HP). Qed.
Print Assumptions C31_parsed_examples.
(** [demo_text] meets the hypotheses of C27-C31. *)
Example parsed_met : files_have_text no_files /\ symbols_have_text demo_text
  /\ exists m, parse_sadl_string demo_ext no_files 0 9 demo_text = Ok m
     /\ length (sc_examples (m_schema m)) = 2
     /\ map (fun h => (length (h_inputs h), h_expected h = None, map xc_type (h_exceptions h))) (sc_http (m_schema m)) <> [].
Proof.
  split; [exact no_files_text|]. split; [apply symbols_by_test; vm_compute; reflexivity|].
  eexists. split; [vm_compute; reflexivity|]. split; [reflexivity|discriminate].
Qed.
