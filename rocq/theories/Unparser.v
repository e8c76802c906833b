(** unparser.go: writing a model as SADL text.

    The text is produced as a list of pieces.  [text] is the string the Go code returns; [tokens]
    is what the scanner delivers for it.  The scanner package is not part of /repo; assumed about it
    here is what the pieces say: blanks give nothing, a line break NEWLINE, "//..." to the end of
    the line LINE_COMMENT, and the text between the quotes of a string is passed on as it stands. *)
From Verif Require Import GoStr Outcome Value Schema Scalars Time Misc Model Scan Parser.

Inductive piece :=
| W (s : string)                 (* a word *)
| N (s : string)                 (* a number *)
| Q (s : string)                 (* a string written with %q *)
| J (s : string)                 (* a string written by encoding/json *)
| R (s : string)                 (* a string between quotes as it stands *)
| P (t : ttype)                  (* punctuation *)
| C (s : string)                 (* // and what follows it *)
| Sp (s : string)                (* blanks *)
| NL.

Definition quot : string := chr 34.
Definition hex_digit (n : nat) : ascii :=
  match String.get n "0123456789abcdef" with Some c => c | None => "0"%char end.
Definition hex2 (n : nat) : string := String (hex_digit (n / 16)) (String (hex_digit (n mod 16)) "").
(** [strconv.Quote] without the quotes.  Bytes from 128 on are copied: Go does so for the
    letters of valid UTF-8, and escapes invalid bytes and unprintable characters (not modelled). *)
Definition go_escape (c : ascii) : string :=
  let n := nat_of_ascii c in
  if Ascii.eqb c """" then "\""" else if Ascii.eqb c "\" then "\\"
  else if n =? 7 then "\a" else if n =? 8 then "\b" else if n =? 12 then "\f" else if n =? 10 then "\n"
  else if n =? 13 then "\r" else if n =? 9 then "\t" else if n =? 11 then "\v"
  else if (n <? 32) || (n =? 127) then "\x" +++ hex2 n
  else String c "".
(** [encoding/json] without HTML escaping; the same remark.  Before Go 1.22 the bytes 8 and 12 were
    written as \u0008 and \u000c (not modelled). *)
Definition json_escape (c : ascii) : string :=
  let n := nat_of_ascii c in
  if Ascii.eqb c """" then "\""" else if Ascii.eqb c "\" then "\\"
  else if n =? 8 then "\b" else if n =? 12 then "\f" else if n =? 10 then "\n"
  else if n =? 13 then "\r" else if n =? 9 then "\t"
  else if n <? 32 then "\u00" +++ hex2 n
  else String c "".
Fixpoint escape (f : ascii -> string) (s : string) : string :=
  match s with EmptyString => "" | String c r => f c +++ escape f r end.

Definition punct_text (t : ttype) : string :=
  match t with
  | COLON => ":" | SEMICOLON => ";" | COMMA => "," | DOT => "." | EQUALS => "="
  | OPEN_BRACE => "{" | CLOSE_BRACE => "}" | OPEN_BRACKET => "[" | CLOSE_BRACKET => "]"
  | OPEN_PAREN => "(" | CLOSE_PAREN => ")" | OPEN_ANGLE => "<" | CLOSE_ANGLE => ">"
  | _ => ""
  end.
Definition piece_text (p : piece) : string :=
  match p with
  | W s => s | N s => s
  | Q s => quot +++ escape go_escape s +++ quot
  | J s => quot +++ escape json_escape s +++ quot
  | R s => quot +++ s +++ quot
  | P t => punct_text t
  | C s => "//" +++ s
  | Sp s => s
  | NL => chr 10
  end.
Definition piece_tokens (p : piece) : list token :=
  match p with
  | W s => [mkTok SYMBOL s] | N s => [mkTok NUMBER s]
  | Q s => [mkTok STRING (escape go_escape s)]
  | J s => [mkTok STRING (escape json_escape s)]
  | R s => [mkTok STRING s]
  | P t => match punct_text t with EmptyString => [] | s => [mkTok t s] end
  | C s => [mkTok LINE_COMMENT s]
  | Sp _ => []
  | NL => [mkTok NEWLINE (chr 10)]
  end.
Fixpoint text (l : list piece) : string := match l with [] => "" | p :: r => piece_text p +++ text r end.
Definition tokens (l : list piece) : list token := flat_map piece_tokens l.

Fixpoint join_pieces (sep : list piece) (l : list (list piece)) : list piece :=
  match l with [] => [] | [a] => a | a :: r => a ++ sep ++ join_pieces sep r end.
(** [" (" + strings.Join(opts, ", ") + ")"] if there are any *)
Definition u_options (opts : list (list piece)) : list piece :=
  match opts with
  | [] => []
  | _ => Sp " " :: P OPEN_PAREN :: join_pieces [P COMMA; Sp " "] opts ++ [P CLOSE_PAREN]
  end.
(** [fmt.Sprintf("%s=%q", k, v)].  The Go code goes through a map, in any order; here the order is that of the list. *)
Definition u_anno (a : string * string) : list piece := [W (fst a); P EQUALS; Q (snd a)].
(** misc.go:178-189 AnnotationsAsString *)
Definition u_annos (a : annos) : list piece := u_options (map u_anno a).

(** misc.go:134-156, the loop over the words: [cur] is the comment line being written *)
Definition flush (tab : string) (cur : option string) : list piece :=
  match cur with Some c => [Sp tab; C c] | None => [] end.
Fixpoint u_wrap (tab : string) (maxcol col : Z) (cur : option string) (toks : list string) : list piece :=
  match toks with
  | [] => flush tab cur
  | tok :: r =>
      let brk := (maxcol <=? col + slen tok)%Z in
      if brk || (col =? 0)%Z
      then (if brk then flush tab cur ++ [NL] else []) ++ u_wrap tab maxcol (slen tab + 3 + slen tok)%Z (Some (" " +++ tok)) r
      else u_wrap tab maxcol (col + (slen tok + 1))%Z (option_map (fun c => c +++ " " +++ tok) cur) r
  end.
(** generator.go:117-119, misc.go:115-164 FormatComment with the prefix "// " *)
Definition u_comment (indent comment : string) (maxcol : Z) (extra_pad : bool) : list piece :=
  if (maxcol <=? slen indent)%Z && negb (contains nl comment)
  then [Sp indent; C (" " +++ comment); NL]
  else
    let tab := spaces (String.length indent) in
    if contains nl comment then flat_map (fun line => [Sp tab; C (" " +++ line); NL]) (split "010" comment)
    else
      let pad := if extra_pad then [Sp tab; C ""; NL] else [] in
      pad ++ (u_wrap tab maxcol 0 None (split " " comment) ++ [NL]) ++ pad.
(** [FormatComment("   ", comment, 100, false)[3:] + "   "], unparser.go:371 *)
Definition u_comment3 (comment : string) : list piece :=
  match u_comment "   " comment 100 false with
  | Sp _ :: r => r
  | NL :: Sp _ :: r => Sp " " :: r
  | l => l
  end ++ [Sp "   "].
Definition indent_amount : string := "    ".
(** [" // " + comment] if there is one *)
Definition u_trailing (comment : string) : list piece :=
  if comment =?s "" then [] else [Sp " "; C (" " +++ comment)].

(** unparser.go:379-394 stringList *)
Definition u_strings (l : list string) : list piece :=
  let delim := if 5 <? length l then [NL; Sp "    "] else [] in
  let fin := if 5 <? length l then [NL] else [] in
  P OPEN_BRACKET :: delim ++ join_pieces (P COMMA :: delim) (map (fun s => [Q s]) l) ++ fin ++ [P CLOSE_BRACKET].

Section U.
(** [Decimal.String], decimal.go:46-48: [big.Float.Text('f', -1)] *)
Variable dec_text : decimal -> string.

Definition opt_piece {A} (o : option A) (f : A -> list piece) : list (list piece) :=
  match o with Some a => [f a] | None => [] end.
Definition u_int (name : string) (z : Z) : list piece := [W name; P EQUALS; N (fmt_d z)].
Definition u_dec (name : string) (d : decimal) : list piece := [W name; P EQUALS; N (dec_text d)].
Definition u_sizes (ts : typespec) : list (list piece) :=
  opt_piece (ts_minsize ts) (u_int "minsize") ++ opt_piece (ts_maxsize ts) (u_int "maxsize").

(** unparser.go:94-101 *)
Definition u_element (indent : string) (e : enumelt) : list piece :=
  [Sp indent; Sp indent_amount; W (ee_symbol e)] ++ u_annos (ee_annos e) ++ u_trailing (ee_comment e) ++ [NL].
(** unparser.go:168-186; [blk]: some field has a long comment, [spec]: the text of the type *)
Definition u_field (blk : bool) (indent : string) (f : fielddef) (spec : list piece) : list piece :=
  (if blk then [NL] else [])
  ++ (if blk && negb (fd_comment f =?s "") then u_comment (indent +++ indent_amount) (fd_comment f) 100 false else [])
  ++ [Sp indent; Sp indent_amount; W (fd_name f); Sp " "] ++ spec
  ++ (if blk then [] else u_trailing (fd_comment f)) ++ [NL].
Definition field_opts (f : fielddef) : list (list piece) :=
  (if fd_required f then [[W "required"]] else []) ++ map u_anno (fd_annos f).
(** unparser.go:193-208 *)
Definition u_variant (v : variantdef) (spec : list piece) : list piece :=
  let long := (100 <? slen (uv_comment v))%Z in
  (if negb (uv_comment v =?s "") && long then u_comment indent_amount (uv_comment v) 100 false else [])
  ++ [Sp indent_amount; W (uv_name v); Sp " "] ++ spec
  ++ (if long then [] else u_trailing (uv_comment v)) ++ [NL].

(** unparser.go:89-227 sadlTypeSpec.  The dead branch 210-219 is left out. *)
Fixpoint u_spec (ts : typespec) (opts : list (list piece)) (indent : string) : list piece :=
  let t := ts_type ts in
  if t =?s "Enum" then
    [W "Enum"; Sp " "; P OPEN_BRACE; NL] ++ flat_map (u_element indent) (ts_elements ts) ++ [Sp indent; P CLOSE_BRACE]
  else if t =?s "String" then
    W "String" :: u_options (opts
      ++ (if ts_pattern ts =?s "" then [] else [[W "pattern"; P EQUALS; Q (ts_pattern ts)]])
      ++ u_sizes ts
      ++ opt_piece (ts_values ts) (fun l => W "values" :: P EQUALS :: u_strings l))
  else if str_mem t numeric_types then
    W t :: u_options (opts ++ opt_piece (ts_min ts) (u_dec "min") ++ opt_piece (ts_max ts) (u_dec "max"))
  else if t =?s "Array" then
    W "List" :: P OPEN_ANGLE :: W (ts_items ts) :: P CLOSE_ANGLE :: u_options (opts ++ u_sizes ts)
  else if t =?s "Map" then
    W "Map" :: P OPEN_ANGLE :: W (ts_keys ts) :: P COMMA :: W (ts_items ts) :: P CLOSE_ANGLE :: u_options (opts ++ u_sizes ts)
  else if t =?s "Struct" then
    match ts with mkTS _ _ _ _ _ fields _ _ _ _ _ _ _ _ _ =>
      match fields with
      | [] => [W "Struct"; NL]
      | _ =>
          let blk := existsb (fun f => (60 <? slen (fd_comment f))%Z) fields in
          [W "Struct"; Sp " "; P OPEN_BRACE; NL]
          ++ flat_map (fun f => u_field blk indent f (u_spec (fd_spec f) (field_opts f) (indent +++ indent_amount))) fields
          ++ [Sp indent; P CLOSE_BRACE]
      end
    end
  else if t =?s "Union" then
    match ts with mkTS _ _ _ _ _ _ _ _ _ _ _ variants _ _ _ =>
      [W "Union"; Sp " "; P OPEN_BRACE; NL]
      ++ flat_map (fun v => u_variant v (u_spec (uv_spec v) (map u_anno (uv_annos v)) (indent +++ indent_amount))) variants
      ++ [P CLOSE_BRACE]
    end
  else W t :: u_options opts.

(** unparser.go:35-40, 58-60 and the template 401: a type definition with its comment *)
Definition u_block_comment (c : string) : list piece := if c =?s "" then [] else u_comment "" c 100 true.
Definition u_typedef (td : typedef) : list piece :=
  [W "type"; Sp " "; W (td_name td); Sp " "] ++ u_spec (td_spec td) [] "" ++ [NL].

(** ** Values *)
(** the keys of a map in the order encoding/json writes them *)
Fixpoint insert_key {A} (kv : string * A) (l : list (string * A)) : list (string * A) :=
  match l with
  | [] => [kv]
  | x :: r => if String.leb (fst kv) (fst x) then kv :: l else x :: insert_key kv r
  end.
Definition sort_keys {A} (l : list (string * A)) : list (string * A) := fold_right insert_key [] l.
(** struct_helpers.go:10-20 ToString: the value as JSON on one line.  Only for the kinds of values the
    parser makes (and plain Go strings, which are written alike); other kinds are not modelled and
    give nothing, nor is an infinite Decimal, which encoding/json refuses. *)
Fixpoint u_json (v : value) : list piece :=
  match v with
  | VNil => [W "null"]
  | VBool b => [W (if b then "true" else "false")]
  | VStr s | VPStr s => [J s]
  | VDec d => [N (dec_text d)]
  | VArr l => P OPEN_BRACKET :: join_pieces [P COMMA] (map u_json l) ++ [P CLOSE_BRACKET]
  | VMap l =>
      P OPEN_BRACE
      :: join_pieces [P COMMA] (map (fun kv => J (fst kv) :: P COLON :: snd kv) (sort_keys (map (fun kv => (fst kv, u_json (snd kv))) l)))
      ++ [P CLOSE_BRACE]
  | _ => []
  end.
(** misc.go:94-103 Pretty: with two blanks of indentation for each level, and a line break at the end *)
Fixpoint u_pretty (ind : string) (v : value) : list piece :=
  match v with
  | VArr [] => [P OPEN_BRACKET; P CLOSE_BRACKET]
  | VArr l =>
      P OPEN_BRACKET :: NL :: Sp (ind +++ "  ")
      :: join_pieces [P COMMA; NL; Sp (ind +++ "  ")] (map (u_pretty (ind +++ "  ")) l) ++ [NL; Sp ind; P CLOSE_BRACKET]
  | VMap [] => [P OPEN_BRACE; P CLOSE_BRACE]
  | VMap l =>
      P OPEN_BRACE :: NL :: Sp (ind +++ "  ")
      :: join_pieces [P COMMA; NL; Sp (ind +++ "  ")]
           (map (fun kv => J (fst kv) :: P COLON :: Sp " " :: snd kv)
              (sort_keys (map (fun kv => (fst kv, u_pretty (ind +++ "  ") (snd kv))) l)))
      ++ [NL; Sp ind; P CLOSE_BRACE]
  | _ => u_json v
  end.

(** ** Http *)
(** unparser.go:351-377 sadlParamSpec *)
Definition u_param (p : paramspec) : list piece :=
  let f := ps_field p in
  let opts := (if fd_required f then [[W "required"]] else [])
    ++ (match fd_default f with VNil => [] | d => [W "default" :: P EQUALS :: u_json d] end)
    ++ (if ps_header p =?s "" then [] else [[W "header"; P EQUALS; Q (ps_header p)]]) in
  let opt := u_options opts in
  let ts := u_spec (fd_spec f) [] indent_amount in
  let long := (100 <? slen (fd_comment f) + slen (fd_name f) + slen (text ts) + slen (text opt))%Z in
  (if negb (fd_comment f =?s "") && long then u_comment3 (fd_comment f) else [])
  ++ [W (fd_name f); Sp " "] ++ ts ++ opt ++ (if long then [] else u_trailing (fd_comment f)) ++ [NL].
(** unparser.go:318-331; a missing Expected is first set to status 200 *)
Definition u_expected (x : option expectedspec) : list piece :=
  let x := match x with Some x => x | None => mkExp [] 200 "" [] end in
  NL :: (if xp_comment x =?s "" then [] else u_comment indent_amount (xp_comment x) 100 false)
  ++ [Sp indent_amount; W "expect"; Sp " "; N (fmt_d (xp_status x)); Sp " "; P OPEN_BRACE; NL]
  ++ flat_map (fun o => Sp indent_amount :: Sp indent_amount :: u_param o) (xp_outputs x)
  ++ [Sp "   "; P CLOSE_BRACE; NL].
(** unparser.go:334-345 *)
Definition u_exception (e : exceptionspec) : list piece :=
  (if xc_comment e =?s "" then [] else u_comment indent_amount (xc_comment e) 100 false)
  ++ [Sp indent_amount; W "except"; Sp " "]
  ++ (if (xc_status e =? 0)%Z then [] else [N (fmt_d (xc_status e)); Sp " "])
  ++ [W (xc_type e); NL].
(** unparser.go:296-349 sadlHttpSpec *)
Definition u_http (h : httpdef) : list piece :=
  let opts := (if negb (h_name h =?s "") && negb (h_name h =?s action_name (h_method h) (h_resource h))
               then [[W "operation"; P EQUALS; W (h_name h)]] else [])
    ++ map u_anno (h_annos h) in
  [W "http"; Sp " "; W (h_method h); Sp " "; Q (h_path h)] ++ u_options opts ++ [Sp " "; P OPEN_BRACE; NL]
  ++ flat_map (fun i => Sp indent_amount :: u_param i) (h_inputs h)
  ++ u_expected (h_expected h)
  ++ (match h_exceptions h with [] => [] | l => NL :: flat_map u_exception l end)
  ++ [P CLOSE_BRACE; NL].

(** ** Operations *)
(** unparser.go:254-260, 274-280: the comment before or behind the entry *)
Definition op_comment_before (c name : string) (ts opt : list piece) : list piece :=
  if negb (c =?s "") && (100 <? slen c + slen name + slen (text ts) + slen (text opt))%Z then u_comment3 c else [].
Definition op_comment_behind (c name : string) (ts opt : list piece) : list piece :=
  if (100 <? slen c + slen name + slen (text ts) + slen (text opt))%Z then [] else u_trailing c.
(** unparser.go:245-265.  The length of [opt] is taken when it is still empty (247, 255). *)
Definition u_op_input (i : fielddef) : list piece :=
  let ts := u_spec (fd_spec i) [] indent_amount in
  let opt := u_options (if fd_required i then [[W "required"]] else []) in
  [Sp indent_amount; Sp indent_amount] ++ op_comment_before (fd_comment i) (fd_name i) ts []
  ++ [W (fd_name i); Sp " "; W (ts_type (fd_spec i))] ++ opt
  ++ op_comment_behind (fd_comment i) (fd_name i) ts [] ++ [NL].
(** unparser.go:270-282.  [opt] is whatever the variable held last: the options of the last
    input, or those of the operation if it has no inputs. *)
Definition u_op_output (opt : list piece) (o : opoutput) : list piece :=
  let ts := u_spec (oo_spec o) [] indent_amount in
  [Sp indent_amount; Sp indent_amount] ++ op_comment_before (oo_comment o) (oo_name o) ts opt
  ++ [W (oo_name o); Sp " "; W (ts_type (oo_spec o))] ++ opt
  ++ op_comment_behind (oo_comment o) (oo_name o) ts opt ++ [NL].
Definition last_opt (op : opdef) : list piece :=
  match rev (op_inputs op) with
  | [] => u_options (map u_anno (op_annos op))
  | i :: _ => u_options (if fd_required i then [[W "required"]] else [])
  end.
Definition u_section {A} (name : string) (l : list A) (f : A -> list piece) : list piece :=
  match l with
  | [] => []
  | _ => [Sp indent_amount; W name; Sp " "; P OPEN_BRACE; NL] ++ flat_map f l ++ [Sp indent_amount; P CLOSE_BRACE; NL]
  end.
(** unparser.go:229-294 sadlOperationSpec *)
Definition u_operation (op : opdef) : list piece :=
  [W "operation"; Sp " "; W (op_name op); Sp " "] ++ u_options (map u_anno (op_annos op)) ++ [Sp " "; P OPEN_BRACE; NL]
  ++ u_section "inputs" (op_inputs op) u_op_input
  ++ u_section "outputs" (op_outputs op) (u_op_output (last_opt op))
  ++ u_section "exceptions" (op_exceptions op) (fun e => [Sp indent_amount; Sp indent_amount; W e; NL])
  ++ [P CLOSE_BRACE; NL].

(** ** Files *)
(** a name with dots *)
Definition u_dotted (s : string) : list piece := join_pieces [P DOT] (map (fun w => [W w]) (split "." s)).
(** unparser.go:67-69; an empty name is written as nothing *)
Definition u_word (s : string) : list piece := if s =?s "" then [] else [W s].
Definition u_example (e : exampledef) : list piece :=
  [W "example"; Sp " "] ++ u_dotted (ex_target e) ++ [Sp " "; P OPEN_PAREN; W "name"; P EQUALS] ++ u_word (ex_name e)
  ++ [P CLOSE_PAREN; Sp " "] ++ u_pretty "" (ex_example e) ++ [NL; NL].
(** unparser.go:44-57 *)
Definition u_annotations (a : annos) : list piece :=
  match a with
  | [] => []
  | _ => NL :: flat_map (fun kv => if snd kv =?s "" then [W (fst kv); NL] else [W (fst kv); Sp " "; Q (snd kv); NL]) a
  end.
(** unparser.go:33-74, 396-404 Generate *)
Definition u_schema (s : schema) : list piece :=
  u_block_comment (sc_comment s)
  ++ (if sc_namespace s =?s "" then [] else [W "namespace"; Sp " "] ++ u_dotted (sc_namespace s) ++ [NL])
  ++ (if sc_name s =?s "" then [] else [W "name"; Sp " "; W (sc_name s); NL])
  ++ (if sc_base s =?s "" then [] else [W "base"; Sp " "; Q (sc_base s); NL])
  ++ (if sc_version s =?s "" then [] else [W "version"; Sp " "; R (sc_version s); NL])
  ++ u_annotations (sc_annos s)
  ++ flat_map (fun td => NL :: u_block_comment (td_comment td) ++ u_typedef td) (sc_types s)
  ++ flat_map (fun op => NL :: u_block_comment (op_comment op) ++ u_operation op) (sc_operations s)
  ++ flat_map (fun h => NL :: u_block_comment (h_comment h) ++ u_http h) (sc_http s)
  ++ flat_map (fun e => NL :: u_block_comment (ex_comment e) ++ u_example e) (sc_examples s).
(** unparser.go:24-31 DecompileSadl *)
Definition decompile (m : model) : string := text (u_schema (m_schema m)).
End U.
