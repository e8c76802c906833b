(** C25, C32, C35, C55: literals, option lists and includes. *)
From Verif Require Import GoStr Outcome Value Schema Scalars Time Model ModelFacts Misc ParserValidate Scan ScanFacts Parser
  SpecModel SpecText SpecOptions LiteralFacts OptionFacts PositionFacts IncludeFacts Demo Lex PropsParser.

(** ** C32 *)
(** A JSON value written as tokens is read as that value, and reading stops just behind it.  A
    number is what [x_decimal] makes of its text. *)
Theorem C32_round_trip : forall X j toks rest st n,
  writes X j toks -> pending st = toks ++ rest -> length (toks ++ rest) <= n ->
  exists st', run (parse_literal_value X n) st = Ok (json_value j, st') /\ pending st' = rest.
Proof.
  intros X j toks rest st n W P L. apply literal_value_iff; [rewrite P; exact L|].
  exists toks. split; [exact P|]. apply writes_literal, W.
Qed.
Print Assumptions C32_round_trip.
Definition c32_json : json :=
  JObject [("a""b", JArray [JNull; JBool true; JNumber "5" (DFin 5 0)]); ("x", JObject []); ("", JString (chr 10))].
Definition c32_text : list token :=
  [mkTok OPEN_BRACE ""; mkTok NEWLINE "";
   mkTok STRING "a\""b"; mkTok COLON ""; mkTok OPEN_BRACKET ""; word "null"; mkTok COMMA ""; word "true"; mkTok COMMA "";
     mkTok NEWLINE ""; mkTok NUMBER "5"; mkTok CLOSE_BRACKET ""; mkTok COMMA "";
   mkTok STRING "x"; mkTok COLON ""; mkTok OPEN_BRACE ""; mkTok CLOSE_BRACE ""; mkTok NEWLINE "";
   mkTok STRING ""; mkTok COLON ""; mkTok STRING "\u000A"; mkTok CLOSE_BRACE ""].
Ltac blanks := repeat (apply Forall_cons; [first [left; reflexivity|right; reflexivity]|]); apply Forall_nil.
Example C32_round_trip_case : writes demo_ext c32_json c32_text.
Proof.
  unfold c32_json, c32_text.
  change [mkTok OPEN_BRACE ""; mkTok NEWLINE "";
   mkTok STRING "a\""b"; mkTok COLON ""; mkTok OPEN_BRACKET ""; word "null"; mkTok COMMA ""; word "true"; mkTok COMMA "";
     mkTok NEWLINE ""; mkTok NUMBER "5"; mkTok CLOSE_BRACKET ""; mkTok COMMA "";
   mkTok STRING "x"; mkTok COLON ""; mkTok OPEN_BRACE ""; mkTok CLOSE_BRACE ""; mkTok NEWLINE "";
   mkTok STRING ""; mkTok COLON ""; mkTok STRING "\u000A"; mkTok CLOSE_BRACE ""]
  with (mkTok OPEN_BRACE "" ::
    ([mkTok NEWLINE ""] ++ mkTok STRING ("a" +++ "\""" +++ "b" +++ "") :: mkTok COLON "" ::
      (mkTok OPEN_BRACKET "" :: ([] ++ [word "null"] ++ [mkTok COMMA ""] ++ [word "true"] ++ [mkTok COMMA ""; mkTok NEWLINE ""] ++ [mkTok NUMBER "5"] ++ []) ++ [mkTok CLOSE_BRACKET ""])
      ++ [mkTok COMMA ""] ++ mkTok STRING ("x" +++ "") :: mkTok COLON "" ::
      (mkTok OPEN_BRACE "" :: [] ++ [mkTok CLOSE_BRACE ""])
      ++ [mkTok NEWLINE ""] ++ mkTok STRING "" :: mkTok COLON "" :: [mkTok STRING ("\u000A" +++ "")] ++ []) ++ [mkTok CLOSE_BRACE ""]).
  assert (forall c : ascii, 32 <= nat_of_ascii c -> c <> """"%char -> c <> "\"%char -> json_char c (String c "")) as JP
    by (intros; apply jc_plain; assumption).
  apply w_object; [reflexivity|reflexivity|repeat constructor; simpl; intuition discriminate|].
  apply we_cons; [blanks| |reflexivity| |].
  { apply (jt_cons "a"); [apply JP; [vm_compute; lia|discriminate|discriminate]|].
    apply (jt_cons """"); [apply jc_quote; reflexivity|].
    apply (jt_cons "b"); [apply JP; [vm_compute; lia|discriminate|discriminate]|]. constructor. }
  { apply w_array; [reflexivity|reflexivity|].
    apply wi_cons; [constructor|constructor|].
    apply wi_cons; [blanks|constructor|].
    apply wi_cons; [blanks|constructor; reflexivity|].
    apply wi_nil. constructor. }
  apply we_cons; [blanks| |reflexivity| |].
  { apply (jt_cons "x"); [apply JP; [vm_compute; lia|discriminate|discriminate]|]. constructor. }
  { apply w_object; [reflexivity|reflexivity|constructor|]. apply we_nil. constructor. }
  apply we_cons; [blanks|constructor|reflexivity| |].
  { apply w_string. apply (jt_cons (ascii_of_nat 10)); [|constructor].
    apply jc_u; [vm_compute; lia|]. exists 0, 10. vm_compute. auto. }
  apply we_nil. constructor.
Qed.
(** JSON's escape \/ is refused. *)
Theorem C32_solidus_refuted : exists raw st, forall X n, pending st = [mkTok STRING raw]
  /\ raw = "\/" /\ forall v st', run (parse_literal_value X n) st <> Ok (v, st').
Proof.
  exists "\/", (start [mkTok STRING "\/"]). intros X n. split; [reflexivity|]. split; [reflexivity|].
  intros v st'. destruct n; discriminate.
Qed.
Print Assumptions C32_solidus_refuted.

(** Characters beyond U+FFFF, that JSON writes as two escapes, are refused. *)
Theorem C32_surrogates_refuted : exists raw st, forall X n, pending st = [mkTok STRING raw]
  /\ raw = "\ud83d\ude00" /\ forall v st', run (parse_literal_value X n) st <> Ok (v, st').
Proof.
  exists "\ud83d\ude00", (start [mkTok STRING "\ud83d\ude00"]). intros X n. split; [reflexivity|]. split; [reflexivity|].
  intros v st'. destruct n; discriminate.
Qed.
Print Assumptions C32_surrogates_refuted.
(** a text with characters of one, two and three bytes *)
Example C32_wide_case : json_text ("a" +++ (byte 195 +++ byte 169) +++ (byte 226 +++ byte 130 +++ byte 172) +++ "") "a\u00e9\u20AC".
Proof.
  apply (jt_cons "a" "a"); [apply jc_plain; [vm_compute; lia|discriminate|discriminate]|].
  apply (jt_wide 233 "0" "0" "e" "9"); [exists 0, 0, 14, 9; repeat split; reflexivity|apply (ub_two 233 3 41); reflexivity || discriminate|].
  apply (jt_wide 8364 "2" "0" "A" "C"); [exists 2, 0, 10, 12; repeat split; reflexivity|apply (ub_three 8364 2 2 44); try reflexivity; [discriminate|intros [K _]; vm_compute in K; apply K; reflexivity]|]. constructor.
Qed.

(** ** C55 *)
(** Exactly the texts of the grammar [literal] are accepted, with the value it gives. *)
Theorem C55_grammar_partial : forall X n st v r, length (pending st) <= n ->
  ((exists st', run (parse_literal_value X n) st = Ok (v, st') /\ pending st' = r)
   <-> exists ts, pending st = ts ++ r /\ literal X ts v).
Proof. intros X n st v r L. apply literal_value_iff, L. Qed.
Print Assumptions C55_grammar_partial.
Example C55_grammar_case : exists ts v, literal demo_ext ts v /\ length ts = 4.
Proof.
  exists [mkTok OPEN_BRACKET ""; mkTok NEWLINE ""; word "true"; mkTok CLOSE_BRACKET ""], (VArr [VBool true]).
  split; [|reflexivity].
  change [mkTok OPEN_BRACKET ""; mkTok NEWLINE ""; word "true"; mkTok CLOSE_BRACKET ""]
    with (mkTok OPEN_BRACKET "" :: [mkTok NEWLINE ""; word "true"] ++ [mkTok CLOSE_BRACKET ""]).
  apply lit_array; [reflexivity|reflexivity|]. apply items_skip; [left; reflexivity|].
  apply (items_cons demo_ext [word "true"]); constructor.
Qed.
(** The grammar is not that of JSON: what stands between the entries of an object is not looked at. *)
Theorem C55_refuted : exists toks v st', run (parse_literal_value demo_ext 99) (start toks) = Ok (v, st')
  /\ v = VMap [("a", VBool true)] /\ forall j, ~ writes demo_ext j toks.
Proof.
  exists [mkTok OPEN_BRACE "{"; mkTok CLOSE_PAREN ")"; mkTok STRING "a"; mkTok COLON ":"; word "true"; mkTok CLOSE_BRACE "}"].
  eexists _, _. split; [reflexivity|]. split; [reflexivity|].
  intros j W. inversion W as [| | | | |l ts o c O C WI|l ts o c O C N WE]; subst; [discriminate O|].
  destruct ts as [|t ts]; [discriminate|].
  match goal with H : _ ++ [c] = _ |- _ => injection H as E1 _ end. subst t.
  inversion WE as [bl B Q1 Q2|k j0 l0 bl raw c0 a ts0 B J C0 Wa Wt Q1 Q2].
  - inversion B as [|? ? [Q|Q] _]; discriminate.
  - destruct bl as [|b bl]; [discriminate Q2|]. injection Q2 as -> _. inversion B as [|? ? [Q|Q] _]; discriminate.
Qed.
Print Assumptions C55_refuted.

(** ** C25 *)
(** An option list is accepted where the options [allowed] may stand exactly if it is written in the
    grammar [opt_part] over them, and what is recorded are the values written, the last of each. *)
Theorem C25_option_list : forall X n allowed st o st', run (parse_options X n allowed) st = Ok (o, st') ->
  exists os, opt_part X allowed (pending st) os (pending st') /\ recorded os o.
Proof. exact options_inv. Qed.
Print Assumptions C25_option_list.
Theorem C25_option_list_accepted : forall X n allowed st os r, length (pending st) <= n ->
  opt_part X allowed (pending st) os r ->
  exists o st', run (parse_options X n allowed) st = Ok (o, st') /\ pending st' = r /\ recorded os o.
Proof. exact options_run. Qed.
Print Assumptions C25_option_list_accepted.
(** which options may stand where, and where their values end up *)
Theorem C25_type : forall X n c st name l t r td st', pending st = word name :: l -> type_head t l r -> In t option_kinds ->
  run (parse_type_directive X n c) st = Ok (td, st') ->
  exists o os r', opt_part X (type_allows t) r os r' /\ statement_end r' (pending st') /\ recorded os o
    /\ td_name td = name /\ td_annos td = o_annos o /\ made t o td.
Proof. exact type_position. Qed.
Print Assumptions C25_type.
Theorem C25_field : forall X n st name l t r f st', pending st = word name :: l -> type_head t l r ->
  run (parse_struct_field X n (type_spec_elements X n)) st = Ok (Some f, st') ->
  exists o os r', opt_part X (field_allows t) r os r' /\ recorded os o
    /\ fd_name f = name /\ ts_type (fd_spec f) = t /\ kept_in o (fd_spec f)
    /\ fd_required f = o_required o /\ fd_default f = o_default o /\ fd_annos f = o_annos o.
Proof. exact field_position. Qed.
Print Assumptions C25_field.
(** Options of a struct or an enum stand before the brace. *)
Theorem C25_braced : forall X n c st name k l td st', pending st = word name :: word k :: l -> In k ["Struct"; "Enum"] ->
  (forall x r, l = x :: r -> ~ of_type OPEN_ANGLE x) ->
  run (parse_type_directive X n c) st = Ok (td, st') ->
  exists o os r, opt_part X [] l os r /\ recorded os o /\ td_name td = name /\ td_annos td = o_annos o
    /\ ts_type (td_spec td) = k.
Proof. exact braced_position. Qed.
Print Assumptions C25_braced.
(** Options of a union of named types stand behind the angle bracket. *)
Theorem C25_union : forall X n c st name a l td st', pending st = word name :: word "Union" :: a :: l -> of_type OPEN_ANGLE a ->
  run (parse_type_directive X n c) st = Ok (td, st') ->
  exists o os ts vs e r r', l = ts ++ e :: r /\ variants ts vs /\ of_type CLOSE_ANGLE e
    /\ opt_part X [] r os r' /\ statement_end r' (pending st') /\ recorded os o
    /\ td_name td = name /\ td_annos td = o_annos o /\ ts_type (td_spec td) = "Union"
    /\ map uv_name (ts_variants (td_spec td)) = vs /\ vs <> [].
Proof. exact union_position. Qed.
Print Assumptions C25_union.
(** A field whose type is a struct or an enum defined where it stands: the annotations before the
    brace and behind the definition are both recorded, those before the brace win; the other options
    are those behind the definition. *)
Theorem C25_inline : forall X n st name k l f st', pending st = word name :: word k :: l -> In k ["Struct"; "Enum"] ->
  (forall x r, l = x :: r -> ~ of_type OPEN_ANGLE x) ->
  run (parse_struct_field X n (type_spec_elements X n)) st = Ok (Some f, st') ->
  exists o1 os1 r1 st1 te st2 o2 os2 r2, opt_part X [] l os1 r1 /\ recorded os1 o1
    /\ pending st1 = word k :: l /\ run (type_spec_elements X n) st1 = Ok (te, st2)
    /\ opt_part X (field_allows k) (pending st2) os2 r2 /\ recorded os2 o2
    /\ fd_name f = name /\ ts_type (fd_spec f) = k /\ kept_in o2 (fd_spec f)
    /\ fd_required f = o_required o2 /\ fd_default f = o_default o2
    /\ (forall x, assoc x (fd_annos f) = match assoc x (o_annos o1) with Some v => Some v | None => assoc x (o_annos o2) end).
Proof. exact inline_position. Qed.
Print Assumptions C25_inline.
Theorem C25_element : forall X n st s l e st', pending st = word s :: l ->
  run (parse_enum_element X n) st = Ok (Some e, st') ->
  exists o os r', opt_part X [] l os r' /\ recorded os o /\ ee_symbol e = s /\ ee_annos e = o_annos o.
Proof. exact element_position. Qed.
Print Assumptions C25_element.
(** Here and for parameters not all that is accepted is recorded: see the refutations below. *)
Theorem C25_example_partial : forall X n c st s l e st', pending st = word s :: l ->
  (forall t r, l = t :: r -> ~ of_type DOT t) ->
  run (parse_example_directive X n c) st = Ok (e, st') ->
  exists o os r' ts, opt_part X example_allows l os r' /\ recorded os o /\ ex_target e = s /\ ex_name e = o_name o
    /\ r' = ts ++ pending st' /\ literal X ts (ex_example e).
Proof. exact example_position. Qed.
Print Assumptions C25_example_partial.
Theorem C25_param_partial : forall X n path name c st t r p st', type_head t (pending st) r ->
  run (parse_http_param X n path name c) st = Ok (p, st') ->
  exists o os r', opt_part X param_allows r os r' /\ recorded os o
    /\ fd_name (ps_field p) = name /\ ts_type (fd_spec (ps_field p)) = t /\ ps_header p = o_header o
    /\ fd_default (ps_field p) = o_default o /\ fd_annos (ps_field p) = o_annos o.
Proof. exact param_position. Qed.
Print Assumptions C25_param_partial.
Theorem C25_exception : forall X n h c st l ty h' st',
  (exists raw, pending st = mkTok NUMBER raw :: word ty :: l) \/ pending st = word ty :: l ->
  run (parse_http_exception X n h c) st = Ok (h', st') ->
  exists o os r' x, opt_part X [] l os r' /\ statement_end r' (pending st') /\ recorded os o
    /\ h_exceptions h' = h_exceptions h ++ [x] /\ xc_type x = ty /\ xc_annos x = o_annos o.
Proof. exact exception_position. Qed.
Print Assumptions C25_exception.
Theorem C25_expected : forall X n h c st l raw h' st', pending st = mkTok NUMBER raw :: l ->
  run (parse_http_expected X n h c) st = Ok (h', st') ->
  exists o os r' x, opt_part X [] l os r' /\ recorded os o /\ h_expected h' = Some x /\ xp_annos x = o_annos o.
Proof. exact expected_position. Qed.
Print Assumptions C25_expected.
Theorem C25_action : forall X n c st m path l h st', pending st = word m :: mkTok STRING path :: l ->
  run (parse_http_directive X n c) st = Ok (h, st') ->
  exists o os b r', opt_part X action_allows l os (b :: r') /\ of_type OPEN_BRACE b /\ recorded os o
    /\ h_path h = path /\ h_annos h = o_annos o
    /\ (o_action o <> "" -> h_name h = o_action o) /\ (o_resource o <> "" -> h_resource h = o_resource o).
Proof. exact action_position. Qed.
Print Assumptions C25_action.
Theorem C25_operation : forall X n c st name l op st', pending st = word name :: l ->
  run (parse_operation_directive X n c) st = Ok (op, st') ->
  exists o os r', opt_part X ["http"] l os r' /\ recorded os o /\ op_name op = name /\ op_annos op = o_annos o
    /\ forall w, In w os -> exists n v, w = OAnno n v.
Proof. exact operation_position. Qed.
Print Assumptions C25_operation.
(** cases *)
Lemma by_run {A} (r : result perror (A * pstate)) (P : A -> pstate -> Prop) :
  match r with Ok (a, st) => P a st | _ => False end -> exists a st, r = Ok (a, st) /\ P a st.
Proof. destruct r as [[a st]|e| |]; try contradiction. eauto. Qed.
Definition at_ (l : list string) : pstate := start (src l).
Example C25_option_list_case :
  match run (parse_options demo_ext 99 (field_allows "String")) (at_ ["(required, minsize=2 Pattern=""a"" values=[""u"", ""v""], x_k=""1"" x_k x_K=""3"") z"]) with
  | Ok (o, st') => o_required o = true /\ o_minsize o = Some 2%Z /\ o_pattern o = "a" /\ o_values o = Some ["u"; "v"]
      /\ o_annos o = [("x_k", ""); ("x_K", "3")] /\ pending st' = [word "z"; mkTok NEWLINE (chr 10)]
  | _ => False
  end.
Proof. vm_compute. intuition. Qed.
Example C25_option_list_bad :
  forallb (fun t => match run (parse_options demo_ext 99 (field_allows "Int32")) (at_ [t]) with Ok _ => false | _ => true end)
    ["(pattern=""a"")"; "(minsize=1)"; "(min=""a"")"; "(required=true)"; "(unknown)"; "(min)"] = true.
Proof. vm_compute. reflexivity. Qed.
Example C25_type_case : match run (parse_type_directive demo_ext 99 "") (at_ ["Name String (minsize=1, maxsize=9, maxsize=5, x_a)"]) with
  | Ok (td, _) => ts_maxsize (td_spec td) = Some 5%Z /\ td_annos td = [("x_a", "")] | _ => False end
  /\ type_head "String" [word "String"; mkTok OPEN_PAREN "("] [mkTok OPEN_PAREN "("].
Proof.
  split; [vm_compute; auto|]. apply th_plain; [simpl; intuition discriminate|].
  intros x r' E. injection E as <- _. discriminate.
Qed.
Example C25_field_case : match run (parse_struct_field demo_ext 99 (type_spec_elements demo_ext 99)) (at_ ["m Map<String,Int32> (minsize=1, required, x_b=""2"")"]) with
  | Ok (Some f, _) => fd_required f = true /\ ts_minsize (fd_spec f) = Some 1%Z /\ fd_annos f = [("x_b", "2")] | _ => False end
  /\ type_head "Map" (src ["Map<String,Int32>"]) [mkTok NEWLINE (chr 10)].
Proof. split; [vm_compute; auto|]. 
  apply (th_map "String" "Int32" (mkTok OPEN_ANGLE "<") (mkTok COMMA ",") (mkTok CLOSE_ANGLE ">")); reflexivity. Qed.
Example C25_others_case :
  match run (parse_enum_element demo_ext 99) (at_ ["RED (x_v=""1"")"]) with Ok (Some e, _) => ee_annos e = [("x_v", "1")] | _ => False end
  /\ match run (parse_example_directive demo_ext 99 "") (at_ ["Point (name=p) { ""x"": 5 }"]) with Ok (e, _) => ex_name e = "p" | _ => False end
  /\ match run (parse_http_param demo_ext 99 "/a" "p" "") (at_ ["String (header=""H"", default=""d"", x_p)"]) with
     | Ok (p, _) => ps_header p = "H" /\ fd_default (ps_field p) = VPStr "d" /\ fd_annos (ps_field p) = [("x_p", "")] | _ => False end
  /\ match run (parse_http_exception demo_ext 99 (mkHttp "" "" "" [] "" "" [] None []) "") (at_ ["404 Oops (x_e)"]) with
     | Ok (h, _) => map xc_annos (h_exceptions h) = [[("x_e", "")]] | _ => False end
  /\ match run (parse_http_expected demo_ext 99 (mkHttp "" "" "" [] "" "" [] None []) "") (at_ ["204 (x_e)"]) with
     | Ok (h, _) => option_map xp_annos (h_expected h) = Some [("x_e", "")] | _ => False end
  /\ match run (parse_http_directive demo_ext 99 "") (at_ ["PUT ""/a"" (action=put, resource=thing, x_h) {"; "  expect 200"; "}"]) with
     | Ok (h, _) => h_name h = "put" /\ h_resource h = "thing" /\ h_annos h = [("x_h", "")] | _ => False end
  /\ match run (parse_operation_directive demo_ext 99 "") (at_ ["Op (x_o) {"; "}"]) with
     | Ok (op, _) => op_annos op = [("x_o", "")] | _ => False end.
Proof. vm_compute. intuition. Qed.
Example C25_definitions_case :
  match run (parse_type_directive demo_ext 99 "") (at_ ["Point Struct (x_a, x_b=""2"") {"; "  x Int32"; "}"]) with
  | Ok (td, _) => td_annos td = [("x_a", ""); ("x_b", "2")] | _ => False end
  /\ match run (parse_type_directive demo_ext 99 "") (at_ ["Color Enum (x_a) {"; "  RED"; "}"]) with
     | Ok (td, _) => td_annos td = [("x_a", "")] | _ => False end
  /\ match run (parse_type_directive demo_ext 99 "") (at_ ["U Union<A, B> (x_a)"]) with
     | Ok (td, _) => td_annos td = [("x_a", "")] /\ map uv_name (ts_variants (td_spec td)) = ["A"; "B"] | _ => False end
  /\ match run (parse_struct_field demo_ext 99 (type_spec_elements demo_ext 99)) (at_ ["u Struct (x_a) {"; "  x Int32"; "} (x_b, x_a=""7"", required)"]) with
     | Ok (Some f, _) => fd_required f = true /\ assoc "x_a" (fd_annos f) = Some "" /\ assoc "x_b" (fd_annos f) = Some "" | _ => False end.
Proof. vm_compute. intuition. Qed.
(** Not everything that is accepted is recorded: [required] of a parameter, the annotations of an
    example, and all that stands behind the closing brace of a struct. *)
Theorem C25_param_required_refuted : exists X n path name c st p st',
  run (parse_http_param X n path name c) st = Ok (p, st')
  /\ In (word "required") (pending st) /\ ~ In (word "required") (pending st') /\ fd_required (ps_field p) = false.
Proof.
  exists demo_ext, 99, "/a", "p", "", (at_ ["String (required)"]).
  apply by_run. vm_compute. split; [auto|]. split; [|reflexivity]. intuition discriminate.
Qed.
Print Assumptions C25_param_required_refuted.
Theorem C25_example_annotation_refuted : exists X n c st e st',
  run (parse_example_directive X n c) st = Ok (e, st') /\ In (word "x_a") (pending st) /\ ex_annos e = [].
Proof.
  exists demo_ext, 99, "", (at_ ["Point (name=p, x_a=""1"") { ""x"": 5 }"]).
  apply by_run. vm_compute. split; [tauto|reflexivity].
Qed.
Print Assumptions C25_example_annotation_refuted.
Theorem C25_struct_refuted : exists X n c st td st',
  run (parse_type_directive X n c) st = Ok (td, st') /\ In (word "x_a") (pending st) /\ ~ In (word "x_a") (pending st')
  /\ td_annos td = [].
Proof.
  exists demo_ext, 99, "", (at_ ["Point Struct {"; "  x Int32"; "} (x_a=""1"")"]).
  apply by_run. vm_compute. split; [tauto|]. split; [intuition discriminate|reflexivity].
Qed.
Print Assumptions C25_struct_refuted.
(** The options before the brace of a union are lost, and so are those of its variants. *)
Theorem C25_union_refuted : exists X n c st td st',
  run (parse_type_directive X n c) st = Ok (td, st') /\ In (word "x_a") (pending st) /\ In (word "x_b") (pending st)
  /\ pending st' = [] /\ td_annos td = [] /\ map uv_annos (ts_variants (td_spec td)) = [[]; []].
Proof.
  exists demo_ext, 99, "", (at_ ["U Union (x_a=""1"") {"; "  n Int32 (x_b)"; "  s String (minsize=1)"; "}"]).
  apply by_run. vm_compute. repeat split; tauto.
Qed.
Print Assumptions C25_union_refuted.

(** ** C35 *)
(** After a successful include the schema is the old one with the marked definitions of the file after its own. *)
Theorem C35_include : forall X E n d sch c st sch' st',
  run (directive X n (incl_of X E d) sch c "include") st = Ok (sch', st') ->
  exists f inc, pending st = mkTok STRING f :: pending st' /\ read_file X E d f = Ok inc
    /\ extends_by f sch (m_schema inc) sch' /\ ~ clash sch (m_schema inc).
Proof. exact include_inv. Qed.
Print Assumptions C35_include.
(** For a schema without clashes of its own and a readable file: a clash of type names is an error, and there is no other. *)
Theorem C35_clash : forall X E n d sch c st f r inc,
  pending st = mkTok STRING f :: r -> read_file X E d f = Ok inc -> collision_free sch ->
  (clash sch (m_schema inc) -> exists e, run (directive X n (incl_of X E d) sch c "include") st = Err e)
  /\ (~ clash sch (m_schema inc) -> exists sch' st', run (directive X n (incl_of X E d) sch c "include") st = Ok (sch', st')
        /\ pending st' = r /\ extends_by f sch (m_schema inc) sch').
Proof. exact include_iff. Qed.
Print Assumptions C35_clash.
(** Whole texts: every type is either defined in the text or belongs to a block with all the types of a file named there. *)
Theorem C35_text : forall X E d toks m, read_string X E d toks = Ok m ->
  exists segs, sc_types (m_schema m) = concat segs /\ Forall (segment (fun f inc => exists m, read_file X E d f = Ok m /\ inc = m_schema m) toks) segs.
Proof. exact read_string_types. Qed.
Print Assumptions C35_text.
Definition c35_files : penv :=
  mkEnv (fun f => if f =?s "b.sadl" then Some (src ["type B Int32"; "type C Array<B> (x_l=""2"")"]) else None) "" "" (fun s => s) "0".
Example C35_case :
  match read_string demo_ext c35_files 3 (src ["type A Int32"; "include ""b.sadl"""; "type D Map<String,B>"]) with
  | Ok m => map td_name (sc_types (m_schema m)) = ["A"; "B"; "C"; "D"]
      /\ map td_annos (sc_types (m_schema m)) = [[]; [("x_include", "b.sadl")]; [("x_l", "2"); ("x_include", "b.sadl")]; []]
  | _ => False
  end
  /\ match read_string demo_ext c35_files 3 (src ["type C Int32"; "include ""b.sadl"""]) with Ok _ => False | _ => True end.
Proof. vm_compute. auto. Qed.
