(** What writing a model as SADL text and reading it again must keep.  Of the model only the data types are used. *)
From Coq Require Import Permutation.
From Verif Require Import GoStr Value Schema Scalars SpecModel SpecMisc SpecOptions SpecParser.

(** printable ASCII without quote and backslash: text that %q writes as it is *)
Definition plain (s : string) : Prop :=
  forall c, has_char c s -> 32 <= nat_of_ascii c < 127 /\ c <> """"%char /\ c <> "\"%char.
Definition one_line_text (s : string) : Prop := ~ has_char "010" s.
Definition fits64 (o : option Z) : Prop := forall z, o = Some z -> (- 2 ^ 63 <= z < 2 ^ 63)%Z.
(** annotations an option list can hold *)
Definition annos_ok (a : annos) : Prop :=
  NoDup (map fst a)
  /\ forall k v, In (k, v) a -> identifier k /\ has_prefix "x_" (to_lower k) = true /\ plain v.
Definition elt_ok (e : enumelt) : Prop := identifier (ee_symbol e) /\ annos_ok (ee_annos e) /\ one_line_text (ee_comment e).

(** ** Type specs whose text can be read *)
Section T.
Variable X : ext.
Variable dec_text : decimal -> string.     (* how a number is written *)
Definition reads_back (o : option decimal) : Prop := forall d, o = Some d -> x_decimal X (dec_text d) = Some d.
(** kinds with a notation of their own, and the old name of Array *)
Definition special_kinds : list string :=
  ["Enum"; "String"; "Array"; "Map"; "Struct"; "Union"; "List"] ++ number_kinds.
Inductive writable : typespec -> Prop :=
| wr_enum ts : ts_type ts = "Enum" -> Forall elt_ok (ts_elements ts) -> writable ts
| wr_string ts : ts_type ts = "String" -> plain (ts_pattern ts) -> fits64 (ts_minsize ts) -> fits64 (ts_maxsize ts) ->
    (forall l, ts_values ts = Some l -> Forall plain l) -> writable ts
| wr_number ts : In (ts_type ts) number_kinds -> reads_back (ts_min ts) -> reads_back (ts_max ts) -> writable ts
| wr_array ts : ts_type ts = "Array" -> identifier (ts_items ts) -> fits64 (ts_minsize ts) -> fits64 (ts_maxsize ts) ->
    writable ts
| wr_map ts : ts_type ts = "Map" -> identifier (ts_keys ts) -> identifier (ts_items ts) ->
    fits64 (ts_minsize ts) -> fits64 (ts_maxsize ts) -> writable ts
| wr_struct ts : ts_type ts = "Struct" ->
    Forall (fun f => identifier (fd_name f) /\ annos_ok (fd_annos f) /\ one_line_text (fd_comment f) /\ writable (fd_spec f))
      (ts_fields ts) -> writable ts
| wr_union ts : ts_type ts = "Union" ->
    Forall (fun v => identifier (uv_name v) /\ annos_ok (uv_annos v) /\ one_line_text (uv_comment v) /\ writable (uv_spec v))
      (ts_variants ts) -> writable ts
| wr_other ts : identifier (ts_type ts) -> ~ In (ts_type ts) special_kinds -> writable ts.
(** a definition must be of one of the base types; a union must not be empty *)
Definition writable_type (td : typedef) : Prop :=
  identifier (td_name td) /\ In (ts_type (td_spec td)) builtin_names /\ writable (td_spec td)
  /\ (ts_type (td_spec td) = "Union" -> ts_variants (td_spec td) <> []).
End T.

(** how a decimal number may look: digits, a point and a minus sign *)
Definition number_text (s : string) : Prop :=
  exists c r, s = String c r /\ (SpecMisc.digit c \/ c = "-"%char)
    /\ forall x, has_char x s -> SpecMisc.digit x \/ x = "."%char \/ x = "-"%char.

(** ** What the text keeps *)
Definition braced (t : string) : bool := str_mem t ["Enum"; "Struct"; "Union"].
Definition some_values (o : option (list string)) : option (list string) :=
  match o with Some [] => None | v => v end.
(** Of a type spec inside another one: a field that has a braced type loses its options, every field
    its default; the parts and limits that mean nothing for the kind are not written,
    nor are references, the sizes of Bytes and the types of a UnitValue; the variants of
    an inline union are read as fields. *)
Fixpoint kept (ts : typespec) : typespec :=
  match ts with
  | mkTS t pat vals mins maxs fields els min max items keys variants unit val ref =>
      let field name comment a (req : bool) spec :=
        mkField name comment (if braced (ts_type spec) then [] else a) (if braced (ts_type spec) then false else req) VNil (kept spec) in
      if t =?s "Enum" then mkTS t "" None None None [] els None None "" "" [] "" "" ""
      else if t =?s "String" then mkTS t pat (some_values vals) mins maxs [] [] None None "" "" [] "" "" ""
      else if str_mem t number_kinds then mkTS t "" None None None [] [] min max "" "" [] "" "" ""
      else if t =?s "Array" then mkTS t "" None mins maxs [] [] None None items "" [] "" "" ""
      else if t =?s "Map" then mkTS t "" None mins maxs [] [] None None items keys [] "" "" ""
      else if t =?s "Struct" then
        mkTS t "" None None None
          (map (fun f => field (fd_name f) (fd_comment f) (fd_annos f) (fd_required f) (fd_spec f)) fields)
          [] None None "" "" [] "" "" ""
      else if t =?s "Union" then
        mkTS t "" None None None
          (map (fun v => field (uv_name v) (uv_comment v) (uv_annos v) false (uv_spec v)) variants)
          [] None None "" "" [] "" "" ""
      else if t =?s "UnitValue" then mkTS t "" None None None [] [] None None "" "" [] "String" "Decimal" ""
      else ts_of t
  end.
(** Of a type definition; its annotations are not written. *)
Definition kept_type (td : typedef) : typedef :=
  let ts := td_spec td in
  mkTD (td_name td) (td_comment td) []
    (if ts_type ts =?s "Union" then
       mkTS "Union" "" None None None [] [] None None "" ""
         (map (fun v => mkVariant (uv_name v) "" [] (ts_of (ts_type (uv_spec v)))) (ts_variants ts)) "" "" ""
     else if (ts_type ts =?s "String") && (ts_pattern ts =?s uuid_pattern) then
       mkTS "UUID" "" (some_values (ts_values ts)) (ts_minsize ts) (ts_maxsize ts) [] [] None None "" "" [] "" "" ""
     else kept ts).

(** ** Comments *)
(** the same without the comments *)
Definition bare_elt (e : enumelt) : enumelt := mkElt (ee_symbol e) "" (ee_annos e).
Fixpoint bare (ts : typespec) : typespec :=
  match ts with
  | mkTS t pat vals mins maxs fields els min max items keys variants unit val ref =>
      mkTS t pat vals mins maxs
        (map (fun f => mkField (fd_name f) "" (fd_annos f) (fd_required f) (fd_default f) (bare (fd_spec f))) fields)
        (map bare_elt els) min max items keys
        (map (fun v => mkVariant (uv_name v) "" (uv_annos v) (bare (uv_spec v))) variants) unit val ref
  end.
Definition bare_type (td : typedef) : typedef := mkTD (td_name td) "" (td_annos td) (bare (td_spec td)).
(** words separated by single blanks *)
Definition a_word (w : string) : Prop := w <> "" /\ forall c, has_char c w -> ~ blank_char c.
Definition spaced (c : string) : Prop := exists ws, Forall a_word ws /\ c = join " " ws.
(** comments short enough to stand behind an entry, without blanks at their ends *)
Definition short_comment (limit : nat) (c : string) : Prop := trimmed c /\ String.length c <= limit.
Definition empty_struct (ts : typespec) : Prop := ts_type ts = "Struct" /\ ts_fields ts = [].
Inductive tidy : typespec -> Prop :=
| tidy_intro ts :
    Forall (fun e => trimmed (ee_comment e)) (ts_elements ts) ->
    Forall (fun f => short_comment 60 (fd_comment f) /\ (empty_struct (fd_spec f) -> fd_comment f = "") /\ tidy (fd_spec f)) (ts_fields ts) ->
    Forall (fun v => short_comment 100 (uv_comment v) /\ (empty_struct (uv_spec v) -> uv_comment v = "") /\ tidy (uv_spec v)) (ts_variants ts) ->
    tidy ts.

(** ** Values *)
(** the values literals have: numbers that are read as they are written, maps without double keys *)
Inductive writable_value (X : ext) (dec_text : decimal -> string) : value -> Prop :=
| wv_nil : writable_value X dec_text VNil
| wv_bool b : writable_value X dec_text (VBool b)
| wv_text v s : text_of v s -> writable_value X dec_text v
| wv_dec d : x_decimal X (dec_text d) = Some d -> writable_value X dec_text (VDec d)
| wv_arr l : Forall (writable_value X dec_text) l -> writable_value X dec_text (VArr l)
| wv_map l : NoDup (map fst l) -> Forall (fun kv => writable_value X dec_text (snd kv)) l -> writable_value X dec_text (VMap l).
(** the same value: a plain text is read as a pointer to it, and the entries of a map have no order *)
Inductive same_value : value -> value -> Prop :=
| sv_nil : same_value VNil VNil
| sv_bool b : same_value (VBool b) (VBool b)
| sv_text v s : text_of v s -> same_value v (VPStr s)
| sv_dec d : same_value (VDec d) (VDec d)
| sv_arr l l' : Forall2 same_value l l' -> same_value (VArr l) (VArr l')
| sv_map l p l' : Permutation l p -> Forall2 (fun a b => fst a = fst b /\ same_value (snd a) (snd b)) p l' ->
    same_value (VMap l) (VMap l').

(** ** Operations *)
(** Inputs and outputs are written without their comments, annotations and limits.  What stands
    behind the last input (or behind the operation's name) is repeated behind every output. *)
Definition plain_input (i : fielddef) : Prop :=
  identifier (fd_name i) /\ exists t, identifier t /\ i = mkField (fd_name i) "" [] (fd_required i) VNil (ts_of t).
Definition plain_output (o : opoutput) : Prop :=
  identifier (oo_name o) /\ exists t, identifier t /\ o = mkOut (oo_name o) "" [] (ts_of t).
Definition writable_op (op : opdef) : Prop :=
  identifier (op_name op) /\ annos_ok (op_annos op)
  /\ Forall plain_input (op_inputs op) /\ Forall plain_output (op_outputs op) /\ Forall identifier (op_exceptions op)
  /\ (op_outputs op <> [] -> (op_inputs op = [] -> op_annos op = [])
      /\ forall l i, op_inputs op = l ++ [i] -> fd_required i = false).

(** ** Examples *)
Definition dotted (s : string) : Prop := Forall identifier (split "." s).
Definition writable_example (X : ext) (dec_text : decimal -> string) (e : exampledef) : Prop :=
  dotted (ex_target e) /\ identifier (ex_name e) /\ writable_value X dec_text (ex_example e) /\ ex_annos e = [].

(** ** Http actions *)
(** a type without limits and without braces, all of which is written *)
Definition unlimited (ts : typespec) : Prop :=
  ts_pattern ts = "" /\ ts_values ts = None /\ ts_minsize ts = None /\ ts_maxsize ts = None /\ ts_min ts = None /\ ts_max ts = None.
Definition param_type (X : ext) (dec_text : decimal -> string) (ts : typespec) : Prop :=
  writable X dec_text ts /\ braced (ts_type ts) = false /\ kept ts = ts /\ unlimited ts.
(** [req]: what the reader makes of the parameter whatever is written *)
Definition writable_param (X : ext) (dec_text : decimal -> string) (path : string) (req : Prop) (p : paramspec) : Prop :=
  let f := ps_field p in
  identifier (fd_name f) /\ ~ In (fd_name f) ["expect"; "except"] /\ fd_annos f = [] /\ spaced (fd_comment f)
  /\ writable_value X dec_text (fd_default f) /\ param_type X dec_text (fd_spec f)
  /\ plain (ps_header p) /\ recorded_source path p /\ (fd_required f = true <-> req).
(** the last part of the path without a variable; empty if there is none *)
Definition resource_of (path r : string) : Prop :=
  (exists a b, split "/" path = a ++ r :: b /\ ~ has_char "{" r /\ Forall (has_char "{") b)
  \/ (r = "" /\ Forall (has_char "{") (split "/" path)).
(** the method in lower case and the resource with a capital *)
Definition action_of (method resource name : string) : Prop :=
  exists c r, resource = String c r /\ nat_of_ascii c < 128 /\ name = to_lower method +++ String (to_upper_ch c) r.
(** given by the author, derived from the path, or neither possible *)
Definition http_name_ok (h : httpdef) : Prop :=
  (identifier (h_name h) /\ h_name h <> to_lower (h_method h) /\ h_resource h = "")
  \/ (resource_of (h_path h) (h_resource h) /\ action_of (h_method h) (h_resource h) (h_name h))
  \/ (resource_of (h_path h) "" /\ h_resource h = "" /\ h_name h = "").
Definition writable_http (X : ext) (dec_text : decimal -> string) (h : httpdef) : Prop :=
  In (h_method h) ["POST"; "GET"; "PUT"; "DELETE"; "PATCH"; "HEAD"; "OPTIONS"] /\ plain (h_path h) /\ annos_ok (h_annos h)
  /\ http_name_ok h
  /\ Forall (fun p => writable_param X dec_text (h_path h) (ps_header p <> "") p) (h_inputs h)
  /\ (exists x, h_expected h = Some x /\ int32 (xp_status x) /\ xp_annos x = [] /\ spaced (xp_comment x)
       /\ Forall (fun p => writable_param X dec_text (h_path h)
            (xp_status x <> 204%Z /\ xp_status x <> 304%Z /\ ps_header p = "") p) (xp_outputs x))
  /\ NoDup (map xc_type (h_exceptions h))
  /\ Forall (fun e => identifier (xc_type e) /\ int32 (xc_status e) /\ xc_annos e = [] /\ spaced (xc_comment e)) (h_exceptions h).
(** equal but for the way defaults are represented *)
Definition same_param (p p' : paramspec) : Prop :=
  let f := ps_field p in
  exists v, same_value (fd_default f) v /\
    p' = mkParam (ps_header p) (ps_query p) (ps_path p)
           (mkField (fd_name f) (fd_comment f) (fd_annos f) (fd_required f) v (fd_spec f)).
Definition same_expected (x x' : expectedspec) : Prop :=
  exists outs, Forall2 same_param (xp_outputs x) outs /\ x' = mkExp outs (xp_status x) (xp_comment x) (xp_annos x).
(** the same action with the comment [c] *)
Definition same_http (h : httpdef) (c : string) (h' : httpdef) : Prop :=
  exists ins x x', Forall2 same_param (h_inputs h) ins /\ h_expected h = Some x /\ same_expected x x'
    /\ h' = mkHttp (h_name h) (h_resource h) c (h_annos h) (h_method h) (h_path h) ins (Some x') (h_exceptions h).

(** ** Whole documents *)
Definition writable_schema (X : ext) (dec_text : decimal -> string) (s : schema) : Prop :=
  identifier (sc_name s)
  /\ (sc_namespace s = "" \/ dotted (sc_namespace s))
  /\ (sc_base s = "" \/ (plain (sc_base s) /\ has_prefix "/" (sc_base s) = true))
  /\ plain (sc_version s)
  /\ (NoDup (map fst (sc_annos s)) /\ forall k v, In (k, v) (sc_annos s) -> identifier k /\ has_prefix "x_" k = true /\ plain v)
  /\ Forall (writable_type X dec_text) (sc_types s)
  /\ Forall writable_op (sc_operations s)
  /\ Forall (writable_http X dec_text) (sc_http s)
  /\ Forall (writable_example X dec_text) (sc_examples s).
Definition comment_kept (c c' : string) : Prop := spaced c -> c' = c.
Definition same_type (td td' : typedef) : Prop :=
  bare_type td' = bare_type (kept_type td) /\ comment_kept (td_comment td) (td_comment td')
  /\ (tidy (td_spec td) -> td_spec td' = td_spec (kept_type td)).
Definition same_op (op op' : opdef) : Prop :=
  exists c, comment_kept (op_comment op) c
    /\ op' = mkOp (op_name op) c (op_annos op) (op_inputs op) (op_outputs op) (op_exceptions op).
Definition same_action (h h' : httpdef) : Prop := exists c, comment_kept (h_comment h) c /\ same_http h c h'.
Definition same_example (e e' : exampledef) : Prop :=
  exists c v, comment_kept (ex_comment e) c /\ same_value (ex_example e) v /\ e' = mkEx (ex_target e) (ex_name e) v c [].
(** [ns] and [ver]: the namespace given to the reader and the language version it puts in *)
Definition same_schema (ns ver : string) (s s' : schema) : Prop :=
  sc_sadl s' = ver /\ sc_name s' = sc_name s
  /\ (sc_namespace s' = if sc_namespace s =?s "" then ns else sc_namespace s)
  /\ sc_version s' = sc_version s /\ comment_kept (sc_comment s) (sc_comment s') /\ sc_base s' = sc_base s /\ sc_annos s' = sc_annos s
  /\ Forall2 same_type (sc_types s) (sc_types s') /\ Forall2 same_op (sc_operations s) (sc_operations s')
  /\ Forall2 same_action (sc_http s) (sc_http s') /\ Forall2 same_example (sc_examples s) (sc_examples s').

(** ** Documents that come back exactly *)
(** values with one way to write them: no maps, whose entries have no order, and texts as literals have them *)
Inductive exact_value : value -> Prop :=
| ev_nil : exact_value VNil
| ev_bool b : exact_value (VBool b)
| ev_text s : exact_value (VPStr s)
| ev_dec d : exact_value (VDec d)
| ev_arr l : Forall exact_value l -> exact_value (VArr l).
Definition exact_type (td : typedef) : Prop := kept_type td = td /\ tidy (td_spec td) /\ spaced (td_comment td).
Definition exact_http (h : httpdef) : Prop :=
  spaced (h_comment h) /\ Forall (fun p => exact_value (fd_default (ps_field p))) (h_inputs h)
  /\ forall x, h_expected h = Some x -> Forall (fun p => exact_value (fd_default (ps_field p))) (xp_outputs x).
Definition exact_schema (s : schema) : Prop :=
  spaced (sc_comment s) /\ Forall exact_type (sc_types s)
  /\ Forall (fun op => spaced (op_comment op)) (sc_operations s) /\ Forall exact_http (sc_http s)
  /\ Forall (fun e => spaced (ex_comment e) /\ exact_value (ex_example e)) (sc_examples s).
