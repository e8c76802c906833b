(** Specifications for Smithy documents; they use the records of SmithyAst.v, none of its functions. *)
From Verif Require Import GoStr Value Schema SpecModel SpecPV SpecMisc SpecGen OpenApi SmithyAst SpecOpenApi SpecImport.

(** ** Names *)
(** the first letter in upper or in lower case *)
Definition cap (s : string) : string :=
  match s with
  | String c r => if (97 <=? nat_of_ascii c) && (nat_of_ascii c <=? 122) then String (ascii_of_nat (nat_of_ascii c - 32)) r else s
  | EmptyString => ""
  end.
Definition uncap (s : string) : string :=
  match s with
  | String c r => if (65 <=? nat_of_ascii c) && (nat_of_ascii c <=? 90) then String (ascii_of_nat (nat_of_ascii c + 32)) r else s
  | EmptyString => ""
  end.
Definition no_hash (s : string) : Prop := no_char "#" s.
(** names as the parser makes them *)
Definition plain_names (sch : schema) : Prop :=
  (forall td, In td (sc_types sch) -> identifier (td_name td))
  /\ (forall h, In h (sc_http sch) -> identifier (h_name h))
  /\ (forall o, In o (sc_operations sch) -> identifier (op_name o))
  /\ (sc_name sch = "" \/ identifier (sc_name sch)).
(** the two pairs of suffixes there are *)
Definition suffixes (insuf outsuf : string) : Prop :=
  (insuf = "Request" /\ outsuf = "Response") \/ (insuf = "Input" /\ outsuf = "Output").
(** a namespace of a user *)
Definition user_namespace (ns : string) : Prop := no_hash ns /\ ns <> "smithy.api".

Section Written.
Context (insuf outsuf : string).
(** the shapes an action or operation has, in order: its inputs, its outputs, itself *)
Definition has_outputs (h : httpdef) : Prop := exists e, h_expected h = Some e /\ xp_outputs e <> [].
Definition io_names {A B} (name : string) (ins : list A) (outs : list B) : list string :=
  (match ins with [] => [] | _ => [cap name +++ insuf] end) ++ (match outs with [] => [] | _ => [cap name +++ outsuf] end).
Definition outputs_of (h : httpdef) : list paramspec := match h_expected h with Some e => xp_outputs e | None => [] end.
Definition action_names (h : httpdef) : list string := io_names (h_name h) (h_inputs h) (outputs_of h) ++ [cap (h_name h)].
Definition operation_names (o : opdef) : list string := io_names (op_name o) (op_inputs o) (op_outputs o) ++ [cap (op_name o)].
Definition service_names (sch : schema) : list string :=
  match sc_http sch, sc_operations sch with [], [] => [] | _, _ => [cap (sc_name sch)] end.
Definition shape_names (sch : schema) : list string :=
  map td_name (sc_types sch) ++ flat_map action_names (sc_http sch) ++ flat_map operation_names (sc_operations sch) ++ service_names sch.
Definition names_apart (sch : schema) : Prop := NoDup (shape_names sch).

(** ** Models that can be written *)
Definition smithy_kinds : list string := number_kinds ++ ["String"; "Enum"; "Struct"; "Array"; "Union"; "Map"; "UUID"].
(** a list of settings k=v *)
Definition settings (s : string) : Prop :=
  exists l, s = join "," l /\ l <> [] /\ forall i, In i l -> no_char "," i /\ has_char "=" i.
(** the shapes that are there when the exceptions of [h] are looked up *)
Definition shape_before (sch : schema) (pre : list httpdef) (h : httpdef) (n : string) : Prop :=
  (exists td, In td (sc_types sch) /\ td_name td = n)
  \/ (exists h', In h' pre /\ In n (action_names h'))
  \/ In n (io_names (h_name h) (h_inputs h) (outputs_of h)).
Definition object_example (ex : exampledef) : Prop := exists l, ex_example ex = VMap l.
(** the examples of an action that are taken up *)
Definition request_of (h : httpdef) (ex : exampledef) : Prop := ex_target ex = cap (h_name h) +++ "Request".
Definition answer_of (sch : schema) (h : httpdef) (ex : exampledef) : Prop :=
  (exists rq, In rq (sc_examples sch) /\ request_of h rq /\ ex_name rq = ex_name ex)
  /\ (ex_target ex = cap (h_name h) +++ "Response" \/ exists x, In x (h_exceptions h) /\ xc_type x = ex_target ex).
Definition smithy_exportable (sch : schema) : Prop :=
  (forall td, In td (sc_types sch) -> In (ts_type (td_spec td)) smithy_kinds)
  /\ (forall h, In h (sc_http sch) -> h_expected h <> None)
  /\ (forall h v, In h (sc_http sch) -> In ("x_paginated", v) (h_annos h) -> settings v)
  /\ (forall pre h post x, sc_http sch = pre ++ h :: post -> In x (h_exceptions h) -> shape_before sch pre h (xc_type x))
  /\ (forall h ex, In h (sc_http sch) -> In ex (sc_examples sch) -> request_of h ex \/ answer_of sch h ex -> object_example ex).
(** no key twice in the annotations *)
Definition annos_once (sch : schema) : Prop :=
  (forall h, In h (sc_http sch) -> NoDup (map fst (h_annos h)))
  /\ (forall td, In td (sc_types sch) -> NoDup (map fst (td_annos td)))
  /\ (forall td e, In td (sc_types sch) -> In e (ts_elements (td_spec td)) -> NoDup (map fst (ee_annos e))).
End Written.

(** ** References in a document *)
Inductive shape_ref : shape -> string -> Prop :=
| sr_members s n m : In (n, m) (sh_members s) -> shape_ref s (mb_target m)
| sr_member s m : sh_member s = Some m -> shape_ref s (mb_target m)
| sr_key s m : sh_key s = Some m -> shape_ref s (mb_target m)
| sr_value s m : sh_value s = Some m -> shape_ref s (mb_target m)
| sr_input s t : sh_input s = Some t -> shape_ref s t
| sr_output s t : sh_output s = Some t -> shape_ref s t
| sr_error s t : In t (sh_errors s) -> shape_ref s t
| sr_operation s t : In t (sh_operations s) -> shape_ref s t.
(** the shapes that every Smithy document has (the Smithy prelude) *)
Definition prelude : list string :=
  ["String"; "Blob"; "BigInteger"; "BigDecimal"; "Timestamp"; "Document"; "Boolean"; "Byte"; "Short"; "Integer"; "Long";
   "Float"; "Double"; "Unit"; "PrimitiveBoolean"; "PrimitiveByte"; "PrimitiveShort"; "PrimitiveInteger"; "PrimitiveLong";
   "PrimitiveFloat"; "PrimitiveDouble"].
Definition ref_resolves (a : ast) (t : string) : Prop :=
  (exists n, In n prelude /\ t = "smithy.api#" +++ n) \/ exists s, In (t, s) (as_shapes a).
Definition refs_resolve (a : ast) : Prop := forall n s t, In (n, s) (as_shapes a) -> shape_ref s t -> ref_resolves a t.
(** types that may be named in fields, items, keys, inputs and outputs *)
Definition smithy_scalars : list string :=
  ["Bool"; "Int8"; "Int16"; "Int32"; "Int64"; "Float32"; "Float64"; "Decimal"; "Bytes"; "String"; "Timestamp"; "UUID"; "Struct"].
Section Named.
Context (insuf outsuf : string).
Definition nameable (sch : schema) (n : string) : Prop :=
  In n smithy_scalars \/ (In n (shape_names insuf outsuf sch) /\ n <> "Array" /\ n <> "Map").
(** the names EnsureNamespaced leaves alone *)
Definition bare_names : list string :=
  ["Boolean"; "Byte"; "Short"; "Integer"; "Long"; "Float"; "Double"; "BigInteger"; "BigDecimal"; "Blob"; "String"; "Timestamp"; "UUID";
   "Enum"; "List"; "Map"; "Set"; "Document"; "Structure"; "Union"].
Definition smithy_refs_ok (sch : schema) : Prop :=
  (forall td f, In td (sc_types sch) -> ts_type (td_spec td) = "Struct" -> In f (ts_fields (td_spec td)) -> nameable sch (ts_type (fd_spec f)))
  /\ (forall td, In td (sc_types sch) -> ts_type (td_spec td) = "Array" -> nameable sch (ts_items (td_spec td)))
  /\ (forall td, In td (sc_types sch) -> ts_type (td_spec td) = "Map" ->
        nameable sch (ts_items (td_spec td)) /\ nameable sch (ts_keys (td_spec td)))
  /\ (forall td v, In td (sc_types sch) -> ts_type (td_spec td) = "Union" -> In v (ts_variants (td_spec td)) ->
        In (ts_type (uv_spec v)) (shape_names insuf outsuf sch) /\ ~ In (ts_type (uv_spec v)) bare_names)
  /\ (forall h p, In h (sc_http sch) -> In p (h_inputs h) \/ In p (outputs_of h) -> nameable sch (ts_type (fd_spec (ps_field p))))
  /\ (forall o f, In o (sc_operations sch) -> In f (op_inputs o) -> nameable sch (ts_type (fd_spec f)))
  /\ (forall o x, In o (sc_operations sch) -> In x (op_outputs o) -> nameable sch (ts_type (oo_spec x))).
End Named.

(** ** Definitions in a document *)
Inductive shape_kind (a : annos) : string -> string -> Prop :=
| sk_int8 : shape_kind a "Int8" "byte" | sk_int16 : shape_kind a "Int16" "short" | sk_int32 : shape_kind a "Int32" "integer"
| sk_int64 : shape_kind a "Int64" "long" | sk_float32 : shape_kind a "Float32" "float" | sk_float64 : shape_kind a "Float64" "double"
| sk_decimal : shape_kind a "Decimal" "bigDecimal" | sk_string : shape_kind a "String" "string" | sk_uuid : shape_kind a "UUID" "string"
| sk_enum : shape_kind a "Enum" "enum" | sk_struct : shape_kind a "Struct" "structure" | sk_union : shape_kind a "Union" "union"
| sk_map : shape_kind a "Map" "map"
| sk_set : (In ("x_unique", "") a \/ In ("x_unique", "true") a) -> shape_kind a "Array" "set"
| sk_list : ~ (In ("x_unique", "") a \/ In ("x_unique", "true") a) -> shape_kind a "Array" "list".
Definition member_names (ts : typespec) : list string :=
  if ts_type ts =?s "Struct" then map (@fd_name typespec) (ts_fields ts)
  else if ts_type ts =?s "Enum" then map ee_symbol (ts_elements ts)
  else if ts_type ts =?s "Union" then map (@uv_name typespec) (ts_variants ts)
  else [].
(** the shape of the inputs or outputs: there if they are, with a member for each *)
Definition io_shape (a : ast) (o : option string) (id : string) (names : list string) : Prop :=
  (names = [] /\ o = None) \/ (names <> [] /\ o = Some id /\ exists s, In (id, s) (as_shapes a) /\ sh_type s = "structure" /\ map fst (sh_members s) = names).
Definition definitions_kept (ns insuf outsuf : string) (sch : schema) (a : ast) : Prop :=
  let id n := ns +++ "#" +++ n in
  (forall td, In td (sc_types sch) -> exists s, In (id (td_name td), s) (as_shapes a)
     /\ shape_kind (td_annos td) (ts_type (td_spec td)) (sh_type s) /\ map fst (sh_members s) = member_names (td_spec td))
  /\ (forall h, In h (sc_http sch) -> exists s, In (id (cap (h_name h)), s) (as_shapes a) /\ sh_type s = "operation"
        /\ io_shape a (sh_input s) (id (cap (h_name h) +++ insuf)) (map (fun p => fd_name (ps_field p)) (h_inputs h))
        /\ io_shape a (sh_output s) (id (cap (h_name h) +++ outsuf)) (map (fun p => fd_name (ps_field p)) (outputs_of h))
        /\ sh_errors s = map (fun x => id (xc_type x)) (h_exceptions h))
  /\ (forall o, In o (sc_operations sch) -> exists s, In (id (cap (op_name o)), s) (as_shapes a) /\ sh_type s = "operation"
        /\ io_shape a (sh_input s) (id (cap (op_name o) +++ insuf)) (map (@fd_name typespec) (op_inputs o))
        /\ io_shape a (sh_output s) (id (cap (op_name o) +++ outsuf)) (map Schema.oo_name (op_outputs o)))
  /\ (forall n, In n (service_names sch) -> exists s, In (id n, s) (as_shapes a) /\ sh_type s = "service"
        /\ sh_operations s = map id (map (fun h => cap (h_name h)) (sc_http sch) ++ map (fun o => cap (op_name o)) (sc_operations sch)))
  /\ map fst (as_shapes a) = map id (shape_names insuf outsuf sch).

(** ** Types, out and back *)
(** what the name of a type comes back as; a variant of a union may be confused with a type of Smithy *)
Definition name_back (t : string) : string := if t =?s "UUID" then "String" else if t =?s "Array" then "List" else t.
Definition variant_types : list (string * string) :=
  [("Boolean", "Bool"); ("Byte", "Int8"); ("Short", "Int16"); ("Integer", "Int32"); ("Long", "Int64"); ("Float", "Float32"); ("Double", "Float64");
   ("BigInteger", "Decimal"); ("BigDecimal", "Decimal"); ("Blob", "Bytes"); ("Document", "Struct")].
Definition variant_type_back (t t' : string) : Prop := In (t, t') variant_types \/ (~ In t (map fst variant_types) /\ t' = t).
(** [t] is [s] without the blanks at both ends *)
Definition only_blanks (s : string) : Prop := forall c, has_char c s -> c = " "%char.
Definition blanks_off (s t : string) : Prop :=
  (exists a b, s = a +++ t +++ b /\ only_blanks a /\ only_blanks b)
  /\ (forall r, t <> " " +++ r) /\ (forall r, t <> r +++ " ").
(** a comment of several lines comes back with its lines trimmed *)
Inductive comment_back : string -> string -> Prop :=
| cb_line s : no_char "010" s -> comment_back s s
| cb_lines l l' : 2 <= length l -> (forall x, In x l -> no_char "010" x) -> Forall2 blanks_off l l' ->
    comment_back (join newline l) (join newline l').
Section Back.
Context (L : slib).
Definition size_back (o o' : option Z) : Prop :=
  match o with
  | None => o' = None
  | Some z => (sl_size L z = 0%Z /\ o' = None) \/ (sl_size L z <> 0%Z /\ o' = Some (sl_size L z))
  end.
Definition bound_back (o : option decimal) : option decimal := match o with Some d => sl_dec L d | None => None end.
Definition uuid_text : string := "([a-f0-9]{8}(-[a-f0-9]{4}){4}[a-f0-9]{8})".
Definition values_back (o : option (list string)) : option (list string) := match o with Some [] => None | _ => o end.
(** an annotation that is kept *)
Definition kept_anno (k : string) (a a' : annos) : Prop :=
  forall v, In (k, v) a' <-> (In (k, v) a /\ v <> "").
Definition elt_back (e e' : enumelt) : Prop :=
  ee_symbol e' = ee_symbol e /\ ee_comment e' = ""
  /\ ((exists v, v <> "" /\ In ("x_enumValue", v) (ee_annos e) /\ ee_annos e' = [("x_enumValue", v)])
      \/ ((forall v, In ("x_enumValue", v) (ee_annos e) -> v = "") /\ ee_annos e' = [])).
Definition field_back (f g : fielddef) : Prop :=
  g = mkField (fd_name f) "" [] (fd_required f) VNil (plain_spec (name_back (ts_type (fd_spec f))) "").
Definition variant_back (v w : variantdef) : Prop :=
  exists c t, comment_back (uv_comment v) c /\ variant_type_back (ts_type (uv_spec v)) t
  /\ w = mkVariant (uv_name v) c [] (plain_spec t "").
Inductive spec_back : typespec -> typespec -> Prop :=
| sb_number ts : In (ts_type ts) number_kinds ->
    spec_back ts (mkTS (ts_type ts) "" None None None [] [] (bound_back (ts_min ts)) (bound_back (ts_max ts)) "" "" [] "" "" "")
| sb_string ts mn mx : ts_type ts = "String" -> ts_pattern ts <> uuid_text ->
    size_back (ts_minsize ts) mn -> size_back (ts_maxsize ts) mx ->
    spec_back ts (mkTS "String" (ts_pattern ts) (values_back (ts_values ts)) mn mx [] [] None None "" "" [] "" "" "")
| sb_string_uuid ts : ts_type ts = "String" -> ts_pattern ts = uuid_text -> spec_back ts (plain_spec "UUID" "")
| sb_uuid ts : ts_type ts = "UUID" -> spec_back ts (plain_spec "UUID" "")
| sb_enum ts els : ts_type ts = "Enum" -> Forall2 elt_back (ts_elements ts) els ->
    spec_back ts (mkTS "Enum" "" None None None [] els None None "" "" [] "" "" "")
| sb_struct ts fs : ts_type ts = "Struct" -> Forall2 field_back (ts_fields ts) fs ->
    spec_back ts (mkTS "Struct" "" None None None fs [] None None "" "" [] "" "" "")
| sb_array ts : ts_type ts = "Array" -> spec_back ts (plain_spec "Array" (name_back (ts_items ts)))
| sb_map ts : ts_type ts = "Map" ->
    spec_back ts (mkTS "Map" "" None None None [] [] None None (name_back (ts_items ts)) (name_back (ts_keys ts)) [] "" "" "")
| sb_union ts vs : ts_type ts = "Union" -> Forall2 variant_back (ts_variants ts) vs ->
    spec_back ts (mkTS "Union" "" None None None [] [] None None "" "" vs "" "" "").
(** the last exception of that type in the model *)
Definition last_status (sch : schema) (n : string) (z : Z) : Prop :=
  exists a x b, flat_map h_exceptions (sc_http sch) = a ++ x :: b /\ xc_type x = n /\ xc_status x = z /\ (forall y, In y b -> xc_type y <> n).
(** the category of Smithy for a status *)
Definition category (z : Z) : string :=
  if (z <? 200)%Z then "informational" else if (z <? 300)%Z then "success" else if (z <? 400)%Z then "redirect"
  else if (z <? 500)%Z then "client" else "server".
(** the annotations that come back, by the kind of the type *)
Definition anno_back (sch : schema) (td : typedef) (k v : string) : Prop :=
  let t := ts_type (td_spec td) in
  (In t (number_kinds ++ ["Enum"; "Struct"; "Union"])
   /\ ((k = "x_tags" /\ v <> "" /\ In (k, v) (td_annos td))
       \/ (k = "x_deprecated" /\ v = "true" /\ exists d, d <> "" /\ In (k, d) (td_annos td))
       \/ (k = "x_deprecated_message" /\ v <> "" /\ exists d, In ("x_deprecated", d) (td_annos td)
            /\ ((no_char "|" d /\ v = d) \/ exists s, no_char "|" s /\ d = s +++ "|" +++ v))
       \/ (k = "x_deprecated_since" /\ v <> "" /\ exists m, no_char "|" v /\ In ("x_deprecated", v +++ "|" +++ m) (td_annos td))
       \/ (k = "x_error" /\ exists z, last_status sch (td_name td) z /\ v = category z)
       \/ (k = "x_httpError" /\ v <> "" /\ exists z, last_status sch (td_name td) z /\ v = sl_text L z)))
  \/ (t = "Array" /\ k = "x_unique" /\ v = "true" /\ (In (k, "") (td_annos td) \/ In (k, "true") (td_annos td))).
Definition type_back (sch : schema) (td td' : typedef) : Prop :=
  td_name td' = td_name td /\ comment_back (td_comment td) (td_comment td') /\ spec_back (td_spec td) (td_spec td')
  /\ (forall k v, In (k, v) (td_annos td') <-> anno_back sch td k v).
(** no name twice among fields, elements and variants *)
Definition members_once (sch : schema) : Prop :=
  forall td, In td (sc_types sch) ->
    (ts_type (td_spec td) = "Struct" -> NoDup (map (@fd_name typespec) (ts_fields (td_spec td))))
    /\ (ts_type (td_spec td) = "Enum" -> NoDup (map ee_symbol (ts_elements (td_spec td))))
    /\ (ts_type (td_spec td) = "Union" -> NoDup (map (@uv_name typespec) (ts_variants (td_spec td)))).
(** no type is named with a hash sign *)
Definition refs_plain (sch : schema) : Prop :=
  (forall td, In td (sc_types sch) ->
     no_hash (ts_items (td_spec td)) /\ no_hash (ts_keys (td_spec td))
     /\ (forall f, In f (ts_fields (td_spec td)) -> no_hash (ts_type (fd_spec f)))
     /\ (forall v, In v (ts_variants (td_spec td)) -> no_hash (ts_type (uv_spec v))))
  /\ (forall h p, In h (sc_http sch) -> In p (h_inputs h) \/ In p (outputs_of h) -> no_hash (ts_type (fd_spec (ps_field p))))
  /\ (forall o, In o (sc_operations sch) ->
        (forall f, In f (op_inputs o) -> no_hash (ts_type (fd_spec f))) /\ (forall x, In x (op_outputs o) -> no_hash (ts_type (oo_spec x)))).

(** ** Actions, out and back *)
Definition param_back (p g : paramspec) (required : bool) (header query : string) (path : bool) : Prop :=
  g = mkParam header query path (mkField (fd_name (ps_field p)) "" [] required VNil (plain_spec (name_back (ts_type (fd_spec (ps_field p)))) "")).
(** the trait says where an input is; whether it is required is kept for the path only *)
Inductive in_back : paramspec -> paramspec -> Prop :=
| inb_path p g : ps_path p = true -> param_back p g true "" "" true -> in_back p g
| inb_query p g : ps_path p = false -> ps_query p <> "" -> param_back p g false "" (ps_query p) false -> in_back p g
| inb_header p g : ps_path p = false -> ps_query p = "" -> param_back p g false (ps_header p) "" false -> in_back p g.
Definition out_back (p g : paramspec) : Prop := param_back p g false (ps_header p) "" false.
(** an input that shows that the shape of the inputs is not the body itself *)
Definition shows (p : paramspec) : Prop :=
  ps_path p = true \/ (ps_query p = "" /\ ps_header p = "") \/ (ps_query p <> "" /\ sl_true L (TStr (ps_query p)) = true).
Definition one_body (n : string) : paramspec := mkParam "" "" false (mkField "body" "" [] false VNil (plain_spec n "")).
Definition ins_back (insuf : string) (h : httpdef) (gs : list paramspec) : Prop :=
  (h_inputs h = [] /\ gs = [])
  \/ ((exists p, In p (h_inputs h) /\ shows p) /\ Forall2 in_back (h_inputs h) gs)
  \/ (h_inputs h <> [] /\ (forall p, In p (h_inputs h) -> ~ shows p) /\ gs = [one_body (cap (h_name h) +++ insuf)]).
Definition outs_back (outsuf : string) (h : httpdef) (outs gs : list paramspec) : Prop :=
  (outs = [] /\ gs = [])
  \/ ((exists p, In p outs /\ ps_header p = "") /\ Forall2 out_back outs gs)
  \/ (outs <> [] /\ (forall p, In p outs -> ps_header p <> "") /\ gs = [one_body (cap (h_name h) +++ outsuf)]).
Definition query_back (p : paramspec) : string := fd_name (ps_field p) +++ "={" +++ fd_name (ps_field p) +++ "}".
Definition uri_back (sch : schema) (h : httpdef) (g : string) : Prop :=
  exists p qs, path_part (sc_base sch +++ h_path h) p /\ without (fun i => ~ is_query i) (h_inputs h) qs
  /\ g = match qs with [] => p | _ => p +++ "?" +++ join "&" (map query_back qs) end.
Definition status_back (z z' : Z) : Prop :=
  ((z = 0%Z \/ sl_status L z = 0%Z) /\ z' = 200%Z) \/ (z <> 0%Z /\ sl_status L z <> 0%Z /\ z' = sl_status L z).
Definition except_back (sch : schema) (x g : exceptionspec) : Prop :=
  xc_type g = xc_type x /\ (exists z, last_status sch (xc_type x) z /\ xc_status g = sl_status L z) /\ xc_annos g = []
  /\ exists td, In td (sc_types sch) /\ td_name td = xc_type x /\ comment_back (td_comment td) (xc_comment g).
(** the settings of x_paginated: the last value of each key counts, up to a second equals sign *)
Definition setting (s k v : string) : Prop :=
  exists a i b, s = join "," (a ++ i :: b) /\ (forall x, In x (a ++ i :: b) -> no_char "," x)
  /\ (exists r, (i = k +++ "=" +++ v \/ i = k +++ "=" +++ v +++ "=" +++ r) /\ no_char "=" k /\ no_char "=" v)
  /\ (forall x r, In x b -> x <> k +++ "=" +++ r).
Definition setting_or (s k v : string) : Prop := setting s k v \/ (v = "" /\ forall w, ~ setting s k w).
Definition pages_back (s v : string) : Prop :=
  exists a b c d, setting_or s "inputToken" a /\ setting_or s "outputToken" b /\ setting_or s "pageSize" c /\ setting_or s "items" d
  /\ v = "inputToken=" +++ a +++ ",outputToken=" +++ b +++ ",pageSize=" +++ c +++ ",items=" +++ d.
Definition action_anno_back (h : httpdef) (k v : string) : Prop :=
  (k = "x_tags" /\ v <> "" /\ In (k, v) (h_annos h)) \/ (k = "x_paginated" /\ exists s, In (k, s) (h_annos h) /\ pages_back s v).
Definition http_back (insuf outsuf : string) (sch : schema) (h g : httpdef) : Prop :=
  h_name g = uncap (h_name h) /\ h_resource g = "" /\ comment_back (h_comment h) (h_comment g) /\ h_method g = h_method h
  /\ (forall k v, In (k, v) (h_annos g) <-> action_anno_back h k v)
  /\ ins_back insuf h (h_inputs g)
  /\ ((exists p, In p (h_inputs h) /\ shows p) -> uri_back sch h (h_path g))
  /\ ((forall p, In p (h_inputs h) -> ~ shows p) -> path_part (sc_base sch +++ h_path h) (h_path g))
  /\ (exists e e', h_expected h = Some e /\ h_expected g = Some e' /\ status_back (xp_status e) (xp_status e')
        /\ xp_comment e' = "" /\ xp_annos e' = [] /\ outs_back outsuf h (xp_outputs e) (xp_outputs e'))
  /\ Forall2 (except_back sch) (h_exceptions h) (h_exceptions g).
(** no name twice among inputs and outputs, none empty; the method is there *)
Definition params_once (sch : schema) : Prop :=
  (forall h, In h (sc_http sch) -> h_method h <> "" /\ NoDup (map (fun p => fd_name (ps_field p)) (h_inputs h))
     /\ NoDup (map (fun p => fd_name (ps_field p)) (outputs_of h))
     /\ forall p, In p (h_inputs h) \/ In p (outputs_of h) -> fd_name (ps_field p) <> "")
  /\ (forall o, In o (sc_operations sch) ->
        NoDup (map (@fd_name typespec) (op_inputs o)) /\ NoDup (map Schema.oo_name (op_outputs o))).
Definition errors_declared (sch : schema) : Prop := forall h x, In h (sc_http sch) -> In x (h_exceptions h) -> declared sch (xc_type x).

(** ** Operations, out and back *)
Definition op_in_back (f g : fielddef) : Prop :=
  g = mkField (fd_name f) "" [] false VNil (plain_spec (name_back (ts_type (fd_spec f))) "").
Definition op_out_back (x y : opoutput) : Prop := y = mkOut (Schema.oo_name x) "" [] (plain_spec (name_back (ts_type (oo_spec x))) "").
Definition op_back (o p : opdef) : Prop :=
  op_name p = uncap (op_name o) /\ comment_back (op_comment o) (op_comment p) /\ op_annos p = []
  /\ Forall2 op_in_back (op_inputs o) (op_inputs p) /\ Forall2 op_out_back (op_outputs o) (op_outputs p) /\ op_exceptions p = [].

(** ** Examples, out and back *)
(** an example of a request, or the answer that goes with a request of that name *)
Inductive example_back (ns : string) (sch : schema) : exampledef -> Prop :=
| eb_request h rq : In h (sc_http sch) -> In rq (sc_examples sch) -> request_of h rq ->
    example_back ns sch (mkEx (cap (ns +++ "#" +++ cap (h_name h)) +++ "Request") (ex_name rq) (sl_data L (ex_example rq)) (ex_comment rq) [])
| eb_answer h rq ex : In h (sc_http sch) -> In rq (sc_examples sch) -> request_of h rq -> In ex (sc_examples sch) ->
    ex_name ex = ex_name rq -> ex_target ex = cap (h_name h) +++ "Response" ->
    example_back ns sch (mkEx (cap (ns +++ "#" +++ cap (h_name h)) +++ "Response") (ex_name ex) (sl_data L (ex_example ex)) "" []).

(** ** The head, out and back *)
Definition version_back (sch : schema) : string :=
  match sc_http sch, sc_operations sch with [], [] => "" | _, _ => or_else "0.0" (sc_version sch) end.
Definition smithy_head_back (name nspace base : string) (sch sch' : schema) : Prop :=
  sc_name sch' = or_else (match sc_http sch, sc_operations sch with [], [] => "" | _, _ => cap (sc_name sch) end) name
  /\ sc_namespace sch' = (if nspace =?s "example" then "" else nspace)
  /\ sc_version sch' = version_back sch /\ sc_comment sch' = "" /\ sc_base sch' = base
  /\ sc_annos sch' = match sc_base sch with EmptyString => [] | b => [("base", b)] end.
End Back.

(** what the proofs of the round trip ask of a model *)
Definition smithy_regular (insuf outsuf : string) (sch : schema) : Prop :=
  plain_names sch /\ names_apart insuf outsuf sch /\ errors_declared sch /\ annos_once sch /\ members_once sch /\ params_once sch /\ refs_plain sch.
Definition plain_start (s : string) : Prop := forall c r, s = String c r -> ascii7 c.

(** ** Types whose data stay the same *)
Section Data.
Context (L : slib) (K : string -> Prop).
(** sizes that the decoder gives back; a greatest size of 0 is not told from none *)
Definition sizes_kept (ts : typespec) : Prop :=
  (forall z, ts_minsize ts = Some z -> sl_size L z = z) /\ (forall z, ts_maxsize ts = Some z -> sl_size L z = z /\ z <> 0%Z).
Definition smithy_item (n : string) : Prop := In n (["Bool"; "Timestamp"; "Any"; "String"; "Bytes"] ++ number_kinds) \/ K n.
(** a field keeps its type but none of what was said of it in place *)
Inductive smithy_field (ts : typespec) : Prop :=
| sf_plain : In (ts_type ts) ["Bool"; "Timestamp"; "Any"; "Bytes"] -> smithy_field ts
| sf_number : In (ts_type ts) number_kinds -> ts_min ts = None -> ts_max ts = None -> smithy_field ts
| sf_string : ts_type ts = "String" -> ts_pattern ts = "" -> ts_values ts = None -> no_sizes ts -> smithy_field ts
| sf_named : K (ts_type ts) -> smithy_field ts.
Inductive smithy_data (ts : typespec) : Prop :=
| sd_number : In (ts_type ts) number_kinds -> bound_back L (ts_min ts) = ts_min ts -> bound_back L (ts_max ts) = ts_max ts -> smithy_data ts
| sd_string : ts_type ts = "String" -> ts_pattern ts <> uuid_text -> ts_values ts <> Some [] -> sizes_kept ts -> smithy_data ts
| sd_plain : In (ts_type ts) ["UUID"; "Enum"; "Union"] -> smithy_data ts
| sd_struct : ts_type ts = "Struct" -> (forall f, In f (ts_fields ts) -> smithy_field (fd_spec f)) -> smithy_data ts
| sd_items : In (ts_type ts) ["Array"; "Map"] -> no_sizes ts -> smithy_item (ts_items ts) -> smithy_data ts.
Definition smithy_data_types (sch : schema) : Prop :=
  forall n, K n -> exists td, In td (sc_types sch) /\ td_name td = n /\ smithy_data (td_spec td).
End Data.

(** ** Documents that can be read *)
Section Readable.
Context (a : ast).
(** objects are maps, and shapes have names *)
Definition maps_once : Prop :=
  NoDup (map fst (as_shapes a)) /\ ~ In "" (map fst (as_shapes a))
  /\ (forall n s, In (n, s) (as_shapes a) -> NoDup (map fst (sh_traits s)))
  /\ (forall n s l, In (n, s) (as_shapes a) -> In ("smithy.api#http", TObj l) (sh_traits s) -> NoDup (map fst l)).
(** at most one service, unless one is asked for *)
Definition one_service (service : string) : Prop :=
  service = "" -> forall n n' s s', In (n, s) (as_shapes a) -> In (n', s') (as_shapes a) ->
    sh_type s = "service" -> sh_type s' = "service" -> n = n'.
(** the inputs and outputs of operations are not read by themselves *)
Definition io_of_operation (n : string) : Prop :=
  exists k o, In (k, o) (as_shapes a) /\ sh_type o = "operation" /\ (sh_input o = Some n \/ sh_output o = Some n).
(** a trait with the name of a shape has to be a trait that the document defines *)
Definition known_traits : list string :=
  ["smithy.api#error"; "smithy.api#httpError"; "smithy.api#httpPayload"; "smithy.api#httpLabel"; "smithy.api#httpQuery"; "smithy.api#httpHeader";
   "smithy.api#required"; "smithy.api#documentation"; "smithy.api#range"; "smithy.api#length"; "smithy.api#tags"; "smithy.api#readonly";
   "smithy.api#idempotent"; "smithy.api#sensitive"; "smithy.api#box"; "smithy.api#http"; "smithy.api#timestampFormat"; "smithy.api#enumValue";
   "smithy.api#deprecated"; "smithy.api#paginated"; "aws.protocols#restJson1"; "smithy.api#examples"].
Definition trait_ok (k : string) : Prop :=
  In k known_traits \/ forall s, In (k, s) (as_shapes a) -> exists l, In ("smithy.api#trait", TObj l) (sh_traits s).
Definition traits_ok (t : traits) : Prop := forall k v, In (k, v) t -> trait_ok k.
Definition present (n : string) : Prop := exists s, In (n, s) (as_shapes a).
(** the method of the http trait of a shape *)
Definition http_method (s : shape) (m : string) : Prop := exists l, In ("smithy.api#http", TObj l) (sh_traits s) /\ In ("method", TStr m) l /\ m <> "".
Inductive shape_ok (s : shape) : Prop :=
| so_plain : In (sh_type s) ["byte"; "short"; "integer"; "long"; "float"; "double"; "bigInteger"; "bigDecimal"; "timestamp"; "boolean"] ->
    traits_ok (sh_traits s) -> shape_ok s
| so_free : In (sh_type s) ["string"; "blob"; "service"; "resource"] -> shape_ok s
| so_list m : In (sh_type s) ["list"; "set"] -> sh_member s = Some m -> shape_ok s
| so_map k v : sh_type s = "map" -> sh_key s = Some k -> sh_value s = Some v -> shape_ok s
| so_members : In (sh_type s) ["structure"; "union"; "enum"] -> traits_ok (sh_traits s) ->
    (forall k m, In (k, m) (sh_members s) -> traits_ok (mb_traits m)) -> shape_ok s
| so_action m : sh_type s = "operation" -> http_method s m -> traits_ok (sh_traits s) ->
    (forall t, sh_output s = Some t -> t = "smithy.api#Unit" \/ present t) -> (forall t, In t (sh_errors s) -> present t) -> shape_ok s
| so_operation : sh_type s = "operation" -> (forall m, ~ http_method s m) -> traits_ok (sh_traits s) ->
    (forall t, sh_input s = Some t \/ sh_output s = Some t -> present t) -> shape_ok s.
Definition shapes_ok : Prop := forall n s, In (n, s) (as_shapes a) -> ~ io_of_operation n -> shape_ok s.
(** the part of a name after the first hash sign *)
Definition local_name (n l : string) : Prop := (no_hash n /\ l = n) \/ exists p, no_hash p /\ n = p +++ "#" +++ l.
Definition makes_type (n s_name : string) : Prop :=
  local_name n s_name /\ exists s, In (n, s) (as_shapes a) /\ ~ io_of_operation n
  /\ In (sh_type s) ["byte"; "short"; "integer"; "long"; "float"; "double"; "bigInteger"; "bigDecimal"; "timestamp"; "boolean";
                     "string"; "blob"; "list"; "set"; "map"; "structure"; "union"; "enum"]
  /\ ~ (sh_type s = "string" /\ s_name = "UUID").
Definition makes_action (n a_name : string) : Prop :=
  exists l, local_name n l /\ small_first l a_name /\ exists s m, In (n, s) (as_shapes a) /\ ~ io_of_operation n /\ sh_type s = "operation" /\ http_method s m.
Definition names_clear : Prop :=
  (forall n n' t, makes_type n t -> makes_type n' t -> n = n')
  /\ (forall n t, makes_type n t -> ~ In t builtin_names)
  /\ (forall n n' h, makes_action n h -> makes_action n' h -> n = n').
Definition smithy_readable (service : string) : Prop := one_service service /\ shapes_ok /\ names_clear.
End Readable.
