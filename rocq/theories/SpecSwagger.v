(** Specifications for Swagger 2 documents, as decoded JSON; they use the records of OpenApi.v and OpenApiImport.v, none
    of their functions and none of Swagger.v. *)
From Verif Require Import GoStr Value Schema Scalars SpecTime SpecModel SpecPV SpecMisc SpecGen OpenApi OpenApiImport SpecOpenApi SpecImport SpecOpenData.

(** ** JSON *)
Inductive json : value -> Prop :=
| js_nil : json VNil
| js_bool b : json (VBool b)
| js_number m e : json (VFloat64 (DFin m e))
| js_text s : json (VStr s)
| js_array l : Forall json l -> json (VArr l)
| js_object l : keys_once l -> Forall (fun kx => json (snd kx)) l -> json (VMap l).
Definition at_key (v : value) (k : string) (x : value) : Prop := exists l, v = VMap l /\ In (k, x) l.
Definition present (v : value) (k : string) : Prop := exists x, at_key v k x /\ x <> VNil.
(** a text, empty where there is none *)
Definition text_is (x : value) (s : string) : Prop := x = VStr s \/ (s = "" /\ forall t, x <> VStr t).
Definition text_at (v : value) (k s : string) : Prop := at_key v k (VStr s) \/ (s = "" /\ forall t, ~ at_key v k (VStr t)).
Definition texts_at (v : value) (k : string) (ss : list string) : Prop :=
  (exists l, at_key v k (VArr l) /\ Forall2 text_is l ss) \/ (ss = [] /\ forall l, ~ at_key v k (VArr l)).
Definition array_at (v : value) (k : string) (l : list value) : Prop := at_key v k (VArr l) \/ (l = [] /\ forall m, ~ at_key v k (VArr m)).
Definition map_at (v : value) (k : string) (l : list (string * value)) : Prop := at_key v k (VMap l) \/ (l = [] /\ forall m, ~ at_key v k (VMap m)).
(** true, a text other than "false", a number, an array or an object *)
Definition flag_at (v : value) (k : string) (b : bool) : Prop :=
  b = true <-> exists x, at_key v k x /\ ~ In x [VNil; VBool false; VStr "false"].
(** a number without its fraction *)
Definition int_part (d : decimal) (z : Z) : Prop :=
  (dec_le (DFin 0 0) d /\ dec_le (DFin z 0) d /\ ~ dec_le (DFin (z + 1) 0) d)
  \/ (~ dec_le (DFin 0 0) d /\ dec_le d (DFin z 0) /\ ~ dec_le d (DFin (z - 1) 0)).
Definition unsigned64 (z w : Z) : Prop := (0 <= w < 2 ^ 64)%Z /\ exists k, (w = z + k * 2 ^ 64)%Z.
(** the number under a key; anything else that is not null counts as zero *)
Definition number_at (v : value) (k : string) (o : option decimal) : Prop :=
  (o = None /\ ~ present v k) \/ (exists d, at_key v k (VFloat64 d) /\ o = Some d)
  \/ (o = Some (DFin 0 0) /\ exists x, at_key v k x /\ x <> VNil /\ forall d, x <> VFloat64 d).
Definition length_at (v : value) (k : string) (o : option Z) : Prop :=
  (o = None /\ number_at v k None) \/ exists d z w, number_at v k (Some d) /\ int_part d z /\ unsigned64 z w /\ o = Some w.

(** ** Documents that do not make the reader crash *)
Definition plain_types : list string := ["string"; "integer"; "number"; "boolean"].
Inductive convertible : value -> Prop :=
| cv_name s : convertible (VStr s)
| cv_object v : text_at v "type" "object" -> (forall ps n p, at_key v "properties" (VMap ps) -> In (n, p) ps -> convertible p) -> convertible v
| cv_array v i : text_at v "type" "array" -> at_key v "items" i -> convertible i -> convertible v
| cv_plain v t : text_at v "type" t -> In t plain_types -> convertible v
| cv_ref v t : text_at v "type" t -> ~ In t ("object" :: "array" :: plain_types) -> present v "$ref" -> convertible v.
Definition sw_keys : list (string * string) :=
  [("get", "GET"); ("delete", "DELETE"); ("put", "PUT"); ("post", "POST"); ("patch", "PATCH"); ("head", "HEAD")].
(** what is found in the document under a path and one of these keys *)
Definition sw_operation (v : value) (path key : string) (op : value) : Prop :=
  exists ps item, at_key v "paths" (VMap ps) /\ In (path, item) ps /\ In key (map fst sw_keys) /\ at_key item key op /\ op <> VNil.
Definition param_convertible (p : value) : Prop :=
  (text_at p "in" "body" -> forall s, at_key p "schema" s -> s <> VNil -> convertible s)
  /\ (~ text_at p "in" "body" -> text_at p "type" "" -> exists s, at_key p "schema" s /\ convertible s).
Definition sw_convertible (v : value) : Prop :=
  (forall ds n d, at_key v "definitions" (VMap ds) -> In (n, d) ds -> convertible d)
  /\ forall path key op, sw_operation v path key op ->
       (forall ps p, at_key op "parameters" (VArr ps) -> In p ps -> param_convertible p)
       /\ (forall rs k r s, at_key op "responses" (VMap rs) -> In (k, r) rs -> at_key r "schema" s -> s <> VNil -> convertible s).

(** ** The same in OpenAPI 3 *)
(** "#/definitions/" is replaced wherever it stands, from the left *)
Inductive moved : string -> string -> Prop :=
| mv_end : moved "" ""
| mv_hit s t : moved s t -> moved ("#/definitions/" +++ s) ("#/components/schemas/" +++ t)
| mv_skip c s t : (~ exists r, String c s = "#/definitions/" +++ r) -> moved s t -> moved (String c s) (String c t).
Inductive v3 : value -> oas -> Prop :=
| v3_name s : v3 (VStr s) (mkOas "" s "" "" "" None None 0%Z None None None None None [] [])
| v3_object v d req l ps : text_at v "type" "object" -> text_at v "description" d -> texts_at v "required" req ->
    map_at v "properties" l -> v3_all l ps ->
    v3 v (mkOas "" "object" "" d "" None None 0%Z None None None None (Some ps) req [])
| v3_array v d req x i : text_at v "type" "array" -> text_at v "description" d -> texts_at v "required" req ->
    at_key v "items" x -> v3 x i ->
    v3 v (mkOas "" "array" "" d "" None None 0%Z None None (Some i) None None req [])
| v3_string v d req f p lo hi en : text_at v "type" "string" -> text_at v "description" d -> texts_at v "required" req ->
    text_at v "format" f -> text_at v "pattern" p -> length_at v "minLength" lo -> length_at v "maxLength" hi -> texts_at v "enum" en ->
    v3 v (mkOas "" "string" f d p None None (match lo with Some z => z | None => 0%Z end) hi (match en with [] => None | _ => Some en end) None None None req [])
| v3_number v t d req f lo hi : text_at v "type" t -> In t ["integer"; "number"] -> text_at v "description" d -> texts_at v "required" req ->
    text_at v "format" f -> number_at v "min" lo -> number_at v "max" hi ->
    v3 v (mkOas "" t f d "" lo hi 0%Z None None None None None req [])
| v3_boolean v d req : text_at v "type" "boolean" -> text_at v "description" d -> texts_at v "required" req ->
    v3 v (mkOas "" "boolean" "" d "" None None 0%Z None None None None None req [])
| v3_pointer v t d req r r' : text_at v "type" t -> ~ In t ("object" :: "array" :: plain_types) -> present v "$ref" ->
    text_at v "description" d -> texts_at v "required" req -> text_at v "$ref" r -> moved r r' ->
    v3 v (mkOas r' t "" d "" None None 0%Z None None None None None req [])
with v3_all : list (string * value) -> list (string * oas) -> Prop :=
| va_nil : v3_all [] []
| va_cons n x l s ss : v3 x s -> v3_all l ss -> v3_all ((n, x) :: l) ((n, s) :: ss).
(** a schema for a body or an answer, which counts if JSON is among the media types *)
Definition content_of (media : list string) (v : value) (o : option oas) : Prop :=
  (~ present v "schema" /\ o = None)
  \/ exists x s, at_key v "schema" x /\ x <> VNil /\ v3 x s
     /\ ((In "application/json" media /\ o = Some s) \/ (~ In "application/json" media /\ o = None)).
Definition parameter_of (p : value) (q : oparam) : Prop :=
  exists i n b t s, text_at p "in" i /\ text_at p "name" n /\ flag_at p "required" b /\ text_at p "type" t
  /\ ((t <> "" /\ v3 (VStr t) s) \/ (t = "" /\ exists x, at_key p "schema" x /\ v3 x s)) /\ q = mkOParam i n b "" s.
Definition in_body (p : value) : Prop := text_at p "in" "body".
(** the last of several bodies counts *)
Definition bodies_of (media : list string) (ps : list value) (b : option (string * oas)) (req : bool) : Prop :=
  (forall p, In p ps -> in_body p -> exists o, content_of media p o)
  /\ (((forall p, In p ps -> ~ in_body p) /\ b = None /\ req = false)
      \/ exists l p r d o, ps = l ++ p :: r /\ in_body p /\ (forall q, In q r -> ~ in_body q) /\ text_at p "description" d /\ content_of media p o
         /\ flag_at p "required" req /\ b = match o with Some s => Some (d, s) | None => None end).
Definition sw_header_of (h : string * value) (g : string * (string * oas)) : Prop :=
  exists d t s, text_at (snd h) "description" d /\ text_at (snd h) "type" t /\ v3 (VStr t) s /\ g = (fst h, (d, s)).
Definition response_of (media : list string) (r : string * value) (q : string * oresponse) : Prop :=
  exists d l hs o, text_at (snd r) "description" d /\ map_at (snd r) "headers" l /\ Forall2 sw_header_of l hs
  /\ content_of media (snd r) o /\ q = (fst r, mkOResp d hs o).
(** media types of an operation, or else those of the document *)
Definition media_at (v : value) (k : string) (dflt media : list string) : Prop :=
  exists l, texts_at v k l /\ ((l <> [] /\ media = l) \/ (l = [] /\ media = dflt)).
Definition operation_of (consumes produces : list string) (v : value) (op : ooperation) : Prop :=
  exists id sm tags cs ps params body req prs l rs, text_at v "operationId" id /\ text_at v "summary" sm /\ texts_at v "tags" tags
  /\ media_at v "consumes" consumes cs /\ array_at v "parameters" ps
  /\ (exists kept, without in_body ps kept /\ Forall2 parameter_of kept params) /\ bodies_of cs ps body req
  /\ media_at v "produces" produces prs /\ map_at v "responses" l /\ Forall2 (response_of prs) l rs
  /\ op = mkOOp id sm tags params body rs req.
Inductive item_of (consumes produces : list string) (v : value) : list (string * string) -> pathitem -> Prop :=
| io_nil : item_of consumes produces v [] []
| io_absent k mth r pi : ~ present v k -> item_of consumes produces v r pi -> item_of consumes produces v ((k, mth) :: r) pi
| io_present k mth r pi x op : at_key v k x -> x <> VNil -> operation_of consumes produces x op -> item_of consumes produces v r pi ->
    item_of consumes produces v ((k, mth) :: r) ((mth, op) :: pi).
Definition path_of (consumes produces : list string) (x : string * value) (y : string * pathitem) : Prop :=
  fst y = fst x /\ item_of consumes produces (snd x) sw_keys (snd y).
Definition doc_of (v : value) (doc : oasdoc) : Prop :=
  exists cs ps ds pl, texts_at v "consumes" cs /\ texts_at v "produces" ps /\ map_at v "definitions" ds /\ map_at v "paths" pl
  /\ v3_all ds (od_schemas doc) /\ Forall2 (path_of cs ps) pl (od_paths doc).

(** at most one answer of an operation stands for success *)
Definition sw_one_success (v : value) : Prop :=
  forall path key op rs k k', sw_operation v path key op -> at_key op "responses" (VMap rs) -> In k (map fst rs) -> In k' (map fst rs) -> success_status k -> success_status k' -> k = k'.

(** ** What definitions and operations are read as *)
Definition sw_read : list (string * string) := [("get", "GET"); ("delete", "DELETE"); ("put", "PUT"); ("post", "POST"); ("head", "HEAD")].
Definition sw_type (ds : list (string * value)) (n : string) (d : value) (td : typedef) : Prop :=
  exists ss s, v3_all ds ss /\ v3 d s /\ type_of ss n s td.
Definition sw_action (v : value) (path mth : string) (x : value) (h : httpdef) : Prop :=
  exists cs ps op, texts_at v "consumes" cs /\ texts_at v "produces" ps /\ operation_of cs ps x op /\ action_of path mth op h.

(** title, description, version, license, host and base path *)
Definition inside (v : value) (k k' s : string) : Prop := (exists x, at_key v k x /\ text_at x k' s) \/ (s = "" /\ forall x, ~ at_key v k x).
Definition license_of (v : value) (k s : string) : Prop := (exists x, at_key v "info" x /\ inside x "license" k s) \/ (s = "" /\ forall x, ~ at_key v "info" x).
Definition sw_head (name : string) (v : value) (sch : schema) : Prop :=
  exists t d ver ln lu h bp, inside v "info" "title" t /\ inside v "info" "description" d /\ inside v "info" "version" ver
  /\ license_of v "name" ln /\ license_of v "url" lu /\ text_at v "host" h /\ text_at v "basePath" bp
  /\ (identifier t -> sc_name sch = t /\ sc_comment sch = d) /\ (t = "" -> sc_name sch = name /\ sc_comment sch = d)
  /\ (t <> "" -> ~ identifier t -> sc_name sch = name /\ sc_comment sch = t +++ " - " +++ d)
  /\ sc_version sch = ver
  /\ (forall k w, In (k, w) (sc_annos sch) <->
        (k = "x_openapi_version" /\ w = "3.0.0") \/ (k = "x_server" /\ present v "host" /\ w = "https://" +++ h +++ bp)
        \/ (k = "x_license_name" /\ w = ln /\ w <> "") \/ (k = "x_license_url" /\ w = lu /\ w <> ""))
  /\ sc_namespace sch = "" /\ sc_base sch = "".

(** ** The data that definitions describe *)
Section Fits.
(** as in [fits]; the keys of the bounds of a number; the definitions *)
Context (X : ext) (whole : decimal -> Prop) (timed : value -> string -> Prop) (closed : bool) (lo hi : string) (defs : list (string * value)).
Definition named_type (v : value) (t : string) : Prop := ~ present v "$ref" /\ at_key v "type" (VStr t).
Definition in_values (v : value) (t : string) : Prop := forall vs, at_key v "enum" (VArr vs) -> In (VStr t) vs.
Definition in_bounds (v : value) (d : decimal) : Prop :=
  (forall b, at_key v lo (VFloat64 b) -> dec_le b d) /\ (forall b, at_key v hi (VFloat64 b) -> dec_le d b).
Definition format_is (v : value) (f : string) : Prop := text_at v "format" f.
Inductive sw_fits : value -> value -> Prop :=
| sf_ref s n d v : at_key s "$ref" (VStr ("#/definitions/" +++ n)) -> In (n, d) defs -> sw_fits d v -> sw_fits s v
| sf_bool s b : named_type s "boolean" -> sw_fits s (VBool b)
| sf_pbool s b : named_type s "boolean" -> sw_fits s (VPBool b)
| sf_text s v t f : named_type s "string" -> format_is s f -> ~ In f formats -> text_of v t ->
    (forall d, at_key s "minLength" (VFloat64 d) -> dec_le d (DFin (Z.of_nat (String.length t)) 0)) ->
    (forall d, at_key s "maxLength" (VFloat64 d) -> dec_le (DFin (Z.of_nat (String.length t)) 0) d) ->
    in_values s t -> (forall p, at_key s "pattern" (VStr p) -> pattern_ok X p t) -> sw_fits s v
| sf_uuid s t : named_type s "string" -> format_is s "uuid" -> in_values s t -> sw_fits s (VUuid t)
| sf_uuid_text s v t : named_type s "string" -> format_is s "uuid" -> text_of v t -> uuid_shape (fun _ => True) t -> in_values s t -> sw_fits s v
| sf_time s t : named_type s "string" -> format_is s "date-time" -> ~ present s "enum" -> sw_fits s (VTime t)
| sf_time_text s v w t : named_type s "string" -> format_is s "date-time" -> timed v w ->
    time_text_v (x_comma X) (x_long X) w t -> real_time t -> in_values s w -> sw_fits s v
| sf_number s d : named_type s "number" -> in_bounds s d -> sw_fits s (VDec d)
| sf_integer s d : named_type s "integer" -> whole d -> in_bounds s d -> sw_fits s (VDec d)
| sf_array s l : named_type s "array" -> (forall i x, at_key s "items" i -> In x l -> sw_fits i x) -> sw_fits s (VArr l)
| sf_object s l : named_type s "object" ->
    (forall a k, at_key s "required" (VArr a) -> In (VStr k) a -> In k (map fst l)) ->
    (forall ps k p x, at_key s "properties" (VMap ps) -> In (k, p) ps -> In (k, x) l -> sw_fits p x) ->
    (forall k x, In (k, x) l -> (forall ps, at_key s "properties" (VMap ps) -> ~ In k (map fst ps)) ->
       (exists a, at_key s "additionalProperties" (VMap a) /\ sw_fits (VMap a) x)
       \/ at_key s "additionalProperties" (VBool true)
       \/ (~ present s "additionalProperties" /\ closed = false)) ->
    sw_fits s (VMap l).
End Fits.

(** ** Definitions that keep their data *)
Section Plain.
Context (lo hi : string) (defs : list (string * value)) (K : string -> Prop).
Definition sw_length (v : value) (k : string) : Prop := ~ present v k \/ exists z, at_key v k (VFloat64 (DFin z 0)) /\ fits_int64 z.
Definition sw_sized (v : value) : Prop := sw_length v "minLength" /\ sw_length v "maxLength".
Definition sw_values (v : value) (vs : list string) : Prop := vs <> [] /\ at_key v "enum" (VArr (map VStr vs)).
Definition texts_only (v : value) (k : string) : Prop := ~ present v k \/ exists s, at_key v k (VStr s).
(** the bounds are under the keys that are looked at *)
Definition same_bounds (v : value) : Prop :=
  (forall d, at_key v "min" (VFloat64 d) <-> at_key v lo (VFloat64 d)) /\ (forall d, at_key v "max" (VFloat64 d) <-> at_key v hi (VFloat64 d))
  /\ (present v "min" -> exists d, at_key v "min" (VFloat64 d)) /\ (present v "max" -> exists d, at_key v "max" (VFloat64 d)).
Definition sw_pointer (v : value) (n : string) : Prop := ~ present v "type" /\ at_key v "$ref" (VStr ("#/definitions/" +++ n)).
Definition sw_item (i : value) : Prop :=
  named_type i "boolean"
  \/ (named_type i "string" /\ ~ present i "enum" /\ ~ present i "pattern" /\ ~ present i "minLength" /\ ~ present i "maxLength")
  \/ (exists t, In t ["number"; "integer"] /\ named_type i t /\ same_bounds i /\ ~ present i "min" /\ ~ present i "max").
Inductive sw_plain : value -> Prop :=
| sp_bool v : named_type v "boolean" -> sw_plain v
| sp_text v f : named_type v "string" -> ~ present v "enum" -> text_at v "format" f -> ~ In f formats -> sw_sized v -> sw_plain v
| sp_formatted v f : named_type v "string" -> ~ present v "enum" -> text_at v "format" f -> In f formats -> sw_plain v
| sp_symbols v f vs : named_type v "string" -> sw_values v vs -> Forall identifier vs -> text_at v "format" f -> ~ In f formats ->
    ~ present v "pattern" -> ~ present v "minLength" -> ~ present v "maxLength" -> sw_plain v
| sp_texts v f vs : named_type v "string" -> sw_values v vs -> ~ Forall identifier vs -> text_at v "format" f -> ~ In f formats ->
    ~ present v "pattern" -> sw_sized v -> sw_plain v
| sp_number v t : In t ["number"; "integer"] -> named_type v t -> same_bounds v -> sw_plain v
| sp_array v i : named_type v "array" -> at_key v "items" i -> (exists n, sw_pointer i n /\ K n) \/ sw_item i -> sw_plain v
| sp_object v : named_type v "object" -> ~ present v "additionalProperties" ->
    (~ present v "properties" \/ exists ps, at_key v "properties" (VMap ps)) ->
    (~ present v "required" \/ exists ks, at_key v "required" (VArr (map VStr ks))) ->
    (forall a k, at_key v "required" (VArr a) -> In (VStr k) a -> exists ps, at_key v "properties" (VMap ps) /\ In k (map fst ps)) ->
    (forall ps k p, at_key v "properties" (VMap ps) -> In (k, p) ps -> (exists n, sw_pointer p n /\ K n) \/ sw_plain p) -> sw_plain v.
Definition sw_plain_def (d : value) : Prop := sw_plain d \/ exists n d', sw_pointer d n /\ K n /\ In (n, d') defs /\ sw_plain d'.
(** the names have no # in them; Decimal, and Timestamp where it is a text, are left out *)
Definition sw_plain_defs : Prop :=
  forall n, K n -> smem "#" n = false /\ n <> "" /\ n <> "Decimal" /\ exists d, In (n, d) defs /\ (n = "Timestamp" -> ~ named_type d "string") /\ sw_plain_def d.
End Plain.
