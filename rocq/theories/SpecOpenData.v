(** Specification of the data that the schemas of an OpenAPI document describe, and of documents whose schemas have
    the same data once read.  Uses the records of OpenApi.v and OpenApiImport.v, none of their functions. *)
From Verif Require Import GoStr Value Schema Scalars SpecTime SpecModel SpecPV SpecMisc SpecGen OpenApi OpenApiImport SpecOpenApi SpecImport.

Section Fits.
(** what counts as a whole number, how the text of a time is given, whether properties that are not mentioned are
    refused, and the named schemas *)
Context (X : ext) (whole : decimal -> Prop) (timed : value -> string -> Prop) (closed : bool) (all : list (string * oas)).
Definition formats : list string := ["uuid"; "date-time"].
Inductive fits : oas -> value -> Prop :=
| ft_ref s n d v : ref_to s n -> In (n, d) all -> fits d v -> fits s v
| ft_bool s b : ~ has_target s -> o_type s = "boolean" -> fits s (VBool b)
| ft_pbool s b : ~ has_target s -> o_type s = "boolean" -> fits s (VPBool b)
| ft_text s v t : ~ has_target s -> o_type s = "string" -> ~ In (o_format s) formats -> text_of v t ->
    (o_minlen s <= Z.of_nat (String.length t))%Z -> (forall z, o_maxlen s = Some z -> (Z.of_nat (String.length t) <= z)%Z) ->
    (forall vs, o_enum s = Some vs -> In t vs) -> pattern_ok X (o_pattern s) t -> fits s v
| ft_uuid s t : ~ has_target s -> o_type s = "string" -> o_format s = "uuid" -> (forall vs, o_enum s = Some vs -> In t vs) -> fits s (VUuid t)
| ft_uuid_text s v t : ~ has_target s -> o_type s = "string" -> o_format s = "uuid" -> text_of v t ->
    uuid_shape (fun _ => True) t -> (forall vs, o_enum s = Some vs -> In t vs) -> fits s v
| ft_time s t : ~ has_target s -> o_type s = "string" -> o_format s = "date-time" -> o_enum s = None -> fits s (VTime t)
| ft_time_text s v w t : ~ has_target s -> o_type s = "string" -> o_format s = "date-time" -> timed v w ->
    time_text_v (x_comma X) (x_long X) w t -> real_time t -> (forall vs, o_enum s = Some vs -> In w vs) -> fits s v
| ft_number s d : ~ has_target s -> o_type s = "number" -> within d (o_min s) (o_max s) -> fits s (VDec d)
| ft_integer s d : ~ has_target s -> o_type s = "integer" -> whole d -> within d (o_min s) (o_max s) -> fits s (VDec d)
| ft_array s l : ~ has_target s -> o_type s = "array" -> (forall i x, o_items s = Some i -> In x l -> fits i x) -> fits s (VArr l)
| ft_object s l : ~ has_target s -> o_type s = "object" ->
    (forall k, In k (o_required s) -> In k (map fst l)) ->
    (forall ps k p x, o_props s = Some ps -> In (k, p) ps -> In (k, x) l -> fits p x) ->
    (forall k x, In (k, x) l -> (forall ps, o_props s = Some ps -> ~ In k (map fst ps)) ->
       (exists a, o_addl s = Some a /\ fits a x) \/ (o_addl s = None /\ closed = false)) ->
    fits s (VMap l).
End Fits.

(** ** Schemas that keep their data *)
Section Plain.
(** the named schemas, and the names in question *)
Context (all : list (string * oas)) (K : string -> Prop).
Definition fits_int64 (z : Z) : Prop := (0 <= z < 2 ^ 63)%Z.
Definition sized (s : oas) : Prop := fits_int64 (o_minlen s) /\ forall z, o_maxlen s = Some z -> fits_int64 z.
(** any value of a type, without a name for it *)
Definition plain_item (i : oas) : Prop :=
  o_ref i = "" /\ (o_type i = "boolean"
    \/ (o_type i = "string" /\ o_enum i = None /\ o_pattern i = "" /\ o_minlen i = 0%Z /\ o_maxlen i = None)
    \/ (In (o_type i) ["number"; "integer"] /\ o_min i = None /\ o_max i = None)).
Inductive plain : oas -> Prop :=
| pl_bool s : o_ref s = "" -> o_type s = "boolean" -> plain s
| pl_text s : o_ref s = "" -> o_type s = "string" -> o_enum s = None -> ~ In (o_format s) formats -> sized s -> plain s
| pl_formatted s : o_ref s = "" -> o_type s = "string" -> o_enum s = None -> In (o_format s) formats -> plain s
| pl_symbols s vs : o_ref s = "" -> o_type s = "string" -> o_enum s = Some vs -> Forall identifier vs -> ~ In (o_format s) formats ->
    o_pattern s = "" -> o_minlen s = 0%Z -> o_maxlen s = None -> plain s
| pl_texts s vs : o_ref s = "" -> o_type s = "string" -> o_enum s = Some vs -> ~ Forall identifier vs -> ~ In (o_format s) formats ->
    o_pattern s = "" -> sized s -> plain s
| pl_number s : o_ref s = "" -> In (o_type s) ["number"; "integer"] -> plain s
| pl_array s i : o_ref s = "" -> o_type s = "array" -> o_items s = Some i -> (exists n, ref_to i n /\ K n) \/ plain_item i -> plain s
| pl_object s : o_ref s = "" -> o_type s = "object" -> o_addl s = None ->
    (forall ps, o_props s = Some ps -> keys_once ps) ->
    (forall k, In k (o_required s) -> exists ps, o_props s = Some ps /\ In k (map fst ps)) ->
    (forall ps k p, o_props s = Some ps -> In (k, p) ps -> (exists n, ref_to p n /\ K n) \/ plain p) -> plain s.
(** a named schema: as it is, or merely the name of such a one *)
Definition plain_def (d : oas) : Prop := plain d \/ exists n d', ref_to d n /\ In (n, d') all /\ plain d'.
Definition plain_defs : Prop := forall n, K n -> exists d, In (n, d) all /\ def_kept n d /\ plain_def d.
End Plain.

(** ** What the schemas and operations of a document are read as *)
Definition integer_kind (f k : string) : Prop :=
  (f = "int8" /\ k = "Int8") \/ (f = "int16" /\ k = "Int16") \/ (f = "int32" /\ k = "Int32") \/ (~ In f ["int8"; "int16"; "int32"] /\ k = "Int64").
Definition bounded_spec (t : string) (lo hi : option decimal) : typespec := mkTS t "" None None None [] [] lo hi "" "" [] "" "" "".
(** the number of a length, which has 64 bits, taken as one with a sign *)
Definition signed64 (z w : Z) : Prop := (- 2 ^ 63 <= w < 2 ^ 63)%Z /\ exists k, (w = z + k * 2 ^ 64)%Z.
Inductive min_read : Z -> option Z -> Prop :=
| mr_none z : (z <= 0)%Z -> min_read z None
| mr_some z w : (0 < z)%Z -> signed64 z w -> min_read z (Some w).
Inductive max_read : option Z -> option Z -> Prop :=
| xr_none : max_read None None
| xr_some z w : signed64 z w -> max_read (Some z) (Some w).
(** the values of a string that are not all identifiers, or no values *)
Definition loose_values (e vs : option (list string)) : Prop :=
  (e = None /\ vs = None) \/ exists l, e = Some l /\ ~ Forall identifier l /\ vs = Some l.
Inductive means : oas -> typespec -> Prop :=
| mn_bool s : o_type s = "boolean" -> means s (plain_spec "Bool" "")
| mn_enum s vs : o_type s = "string" -> o_enum s = Some vs -> Forall identifier vs ->
    means s (mkTS "Enum" "" None None None [] (map (fun x => mkElt x "" []) vs) None None "" "" [] "" "" "")
| mn_uuid s vs : o_type s = "string" -> o_format s = "uuid" -> loose_values (o_enum s) vs ->
    means s (mkTS "UUID" "" vs None None [] [] None None "" "" [] "" "" "")
| mn_time s vs : o_type s = "string" -> o_format s = "date-time" -> loose_values (o_enum s) vs ->
    means s (mkTS "Timestamp" "" vs None None [] [] None None "" "" [] "" "" "")
| mn_text s vs lo hi : o_type s = "string" -> ~ In (o_format s) formats -> loose_values (o_enum s) vs ->
    min_read (o_minlen s) lo -> max_read (o_maxlen s) hi ->
    means s (mkTS "String" (o_pattern s) vs lo hi [] [] None None "" "" [] "" "" "")
| mn_number s : o_type s = "number" -> means s (bounded_spec "Decimal" (o_min s) (o_max s))
| mn_integer s k : o_type s = "integer" -> integer_kind (o_format s) k -> means s (bounded_spec k (o_min s) (o_max s))
| mn_bare_array s : o_type s = "array" -> o_items s = None -> means s (plain_spec "Array" "")
| mn_array_named s i n : o_type s = "array" -> o_items s = Some i -> o_ref i <> "" -> named i n -> means s (plain_spec "Array" n)
| mn_array_inline s i its : o_type s = "array" -> o_items s = Some i -> o_ref i = "" -> means i its -> means s (plain_spec "Array" (ts_type its))
| mn_bare_object s : o_type s = "" \/ o_type s = "object" -> o_props s = None -> means s (plain_spec "Struct" "")
| mn_object s ps fs : o_type s = "" \/ o_type s = "object" -> o_props s = Some ps -> prop_fields (o_required s) ps fs ->
    means s (mkTS "Struct" "" None None None fs [] None None "" "" [] "" "" "")
(** what follows the prefix of a reference, which may be nothing *)
with named : oas -> string -> Prop :=
| nm_ref s n : o_ref s = "#/components/schemas/" +++ n -> named s n
| nm_bare s : (~ exists r, o_ref s = "#/components/schemas/" +++ r) -> named s (o_ref s)
with prop_fields : list string -> list (string * oas) -> list fielddef -> Prop :=
| pf_nil req : prop_fields req [] []
| pf_named req k p n ps fs r : ref_to p n -> (r = true <-> In k req) -> prop_fields req ps fs ->
    prop_fields req ((k, p) :: ps) (mkField k (o_desc p) [] r VNil (plain_spec n "") :: fs)
| pf_inline req k p ts ps fs r : ~ has_target p -> means p ts -> (r = true <-> In k req) -> prop_fields req ps fs ->
    prop_fields req ((k, p) :: ps) (mkField k (o_desc p) [] r VNil ts :: fs).
(** the type of a header or of the body of an answer *)
Definition out_means (s : oas) (ts : typespec) : Prop :=
  (o_ref s <> "" /\ exists n, named s n /\ ts = plain_spec n "") \/ (o_ref s = "" /\ means s ts).
(** the type of a parameter *)
Definition values_spec (t items : string) (e : option (list string)) (ts : typespec) : Prop :=
  exists vs, (forall v l, e = Some (v :: l) -> vs = Some (v :: l)) /\ ((forall v l, e <> Some (v :: l)) -> vs = None)
    /\ ts = mkTS t "" vs None None [] [] None None items "" [] "" "" "".
Inductive param_means : oas -> typespec -> Prop :=
| pm_named s n : ref_to s n -> param_means s (plain_spec n "")
| pm_text s ts : ~ has_target s -> o_type s = "string" -> values_spec "String" "" (o_enum s) ts -> param_means s ts
| pm_number s ts : ~ has_target s -> o_type s = "number" -> values_spec "Decimal" "" (o_enum s) ts -> param_means s ts
| pm_integer s ts : ~ has_target s -> o_type s = "integer" -> values_spec "Int32" "" (o_enum s) ts -> param_means s ts
| pm_bool s ts : ~ has_target s -> o_type s = "boolean" -> values_spec "Bool" "" (o_enum s) ts -> param_means s ts
| pm_texts s i ts : ~ has_target s -> o_type s = "array" -> o_items s = Some i -> o_type i = "string" -> values_spec "Array" "String" (o_enum s) ts -> param_means s ts
| pm_others s ts : ~ has_target s -> o_type s = "array" -> (forall i, o_items s = Some i -> o_type i <> "string") -> values_spec "Array" "Any" (o_enum s) ts -> param_means s ts.
Definition input_of (p : oparam) (i : paramspec) : Prop :=
  exists ts, param_means (op_schema p) ts
  /\ (forall h q b, (op_in p = "query" /\ h = "" /\ q = op_pname p /\ b = false)
       \/ (op_in p = "path" /\ h = "" /\ q = "" /\ b = true)
       \/ (op_in p = "header" /\ h = op_pname p /\ q = "" /\ b = false)
       \/ (~ In (op_in p) ["query"; "path"; "header"] /\ h = "" /\ q = "" /\ b = false) ->
      i = mkParam h q b (mkField (letters (op_pname p)) (op_desc p) [] (op_req p) VNil ts)).
(** the body, where its schema is a reference *)
Definition body_of (mth : string) (op : ooperation) (is : list paramspec) : Prop :=
  (exists d s n, In mth ["PUT"; "POST"] /\ oo_body op = Some (d, s) /\ ref_to s n
     /\ is = [mkParam "" "" false (mkField "body" d [] (oo_bodyreq op) VNil (plain_spec n ""))])
  \/ (is = [] /\ forall d s, In mth ["PUT"; "POST"] -> oo_body op = Some (d, s) -> ~ has_target s).
Definition piece_of (p : oparam) : string := op_pname p +++ "={" +++ letters (op_pname p) +++ "}".
Definition template_of (path : string) (ps : list oparam) (t : string) : Prop :=
  exists qs, without (fun p => op_in p <> "query") ps qs
  /\ t = match qs with [] => path | _ => path +++ "?" +++ join "&" (map piece_of qs) end.
(** the first tag is the resource, those after it an annotation; empty ones in front do not count *)
Definition blanks (l : list string) : Prop := forall t, In t l -> t = "".
Inductive tags_read : list string -> string -> annos -> Prop :=
| tr_none l : blanks l -> tags_read l "" []
| tr_one a r b : blanks a -> r <> "" -> blanks b -> tags_read (a ++ r :: b) r []
| tr_more a r b t c : blanks a -> r <> "" -> blanks b -> t <> "" -> tags_read (a ++ r :: b ++ t :: c) r [("x_tags", join "," (t :: c))].
(** a status as a number of 32 bits *)
Definition code_read (z c : Z) : Prop := (- 2 ^ 31 <= c < 2 ^ 31)%Z /\ exists k, (c = z + k * 2 ^ 32)%Z.
Definition header_of (h : string * (string * oas)) (i : paramspec) : Prop :=
  exists b ts, bare_header (fst h) b /\ out_means (snd (snd h)) ts
  /\ i = mkParam (fst h) "" false (mkField (letters b) (fst (snd h)) [] false VNil ts).
Definition payload_of (b : option oas) (is : list paramspec) : Prop :=
  match b with
  | None => is = []
  | Some s => exists ts, out_means s ts /\ is = [mkParam "" "" false (mkField "body" "" [] false VNil ts)]
  end.
Definition expected_of (k : string) (r : oresponse) (e : expectedspec) : Prop :=
  exists c hs bs, ((k = "default" \/ has_x k) /\ c = 200%Z \/ (k <> "default" /\ ~ has_x k /\ exists z, int_text k z /\ code_read z c))
  /\ Forall2 header_of (or_headers r) hs /\ payload_of (or_body r) bs /\ e = mkExp (hs ++ bs) c (or_desc r) [].
Definition exception_of (kr : string * oresponse) (x : exceptionspec) : Prop :=
  exists c t, ((fst kr = "default" /\ c = 0%Z) \/ (fst kr <> "default" /\ exists z, int_text (fst kr) z /\ code_read z c))
  /\ match or_body (snd kr) with None => t = "" | Some s => named s t end /\ x = mkExc t c (or_desc (snd kr)) [].
Definition action_of (path mth : string) (op : ooperation) (h : httpdef) : Prop :=
  h_name h = oo_id op /\ h_method h = mth /\ h_comment h = oo_summary op /\ tags_read (oo_tags op) (h_resource h) (h_annos h)
  /\ template_of path (oo_params op) (h_path h)
  /\ (exists is bs, Forall2 input_of (oo_params op) is /\ body_of mth op bs /\ h_inputs h = is ++ bs)
  /\ exists k r e others, expected_answer op k /\ In (k, r) (oo_responses op) /\ h_expected h = Some e /\ expected_of k r e
     /\ without (fun kr => fst kr = k) (oo_responses op) others /\ Forall2 exception_of others (h_exceptions h).

(** the type of a named schema; one that is merely a name becomes what that name stands for *)
Definition type_of (all : list (string * oas)) (n : string) (s : oas) (td : typedef) : Prop :=
  (exists n' d ts, ref_to s n' /\ In (n', d) all /\ means d ts /\ td = mkTD n "" [] ts)
  \/ (exists ts, ~ has_target s /\ means s ts /\ td = mkTD n (o_desc s) [] ts).
(** a whole number, however written *)
Definition whole_number (d : decimal) : Prop := exists z, dec_le d (DFin z 0) /\ dec_le (DFin z 0) d.
