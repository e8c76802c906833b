(** openapi/import_swagger.go: a Swagger 2 document read as an OpenAPI 3 document and then as a schema.  A decoded JSON
    text is a [value] of VNil, VBool, VFloat64, VStr, VArr and VMap; the entries of a map are met in any order, here
    in the order of the list. *)
From Verif Require Import GoStr Outcome Value Data Schema Misc Model OpenApi OpenApiImport.

(** data.go:91-120 for one key: [sadl.AsData(v).Get(k)] *)
Definition sw_get (v : value) (k : string) : value := d_get (as_data v) [k].
Definition sw_string (v : value) (k : string) : string := as_string (sw_get v k).
Definition sw_strings (v : value) (k : string) : list string := map as_string (as_array (sw_get v k)).
Definition sw_map (v : value) (k : string) : list (string * value) := match sw_get v k with VMap l => l | _ => [] end.
Definition sw_has (v : value) (k : string) : bool := match sw_get v k with VNil => false | _ => true end.
(** struct_helpers.go:94-106.  [int64(n)] of a float64 truncates; out of range is not modelled. *)
Definition as_int64 (v : value) : Z :=
  match v with VFloat64 (DFin m e) => if (0 <=? e)%Z then (m * 2 ^ e)%Z else Z.quot m (2 ^ (- e)) | _ => 0%Z end.
Definition as_float64 (v : value) : decimal := match v with VFloat64 d => d | _ => DFin 0 0 end.
Definition to_uint64 (z : Z) : Z := (z mod 2 ^ 64)%Z.

(** [strings.Replace(s, old, new, -1)] with [old] not empty; [n] bounds the number of replacements *)
Fixpoint replace_all (n : nat) (old new s : string) : string :=
  match n with
  | O => s
  | S n' =>
      if has_prefix old s then new +++ replace_all n' old new (sdrop (String.length old) s)
      else match s with EmptyString => "" | String c r => String c (replace_all n' old new r) end
  end.
Definition definitions_prefix : string := "#/definitions/".
Definition v3_ref (s : string) : string := replace_all (S (String.length s)) definitions_prefix schema_prefix s.

(** import_swagger.go:210-238, 242-247: the schemas that contain no others; [Panic]: "fix this schema" *)
Definition v3_leaf (v : value) : result unit oas :=
  let t := sw_string v "type" in
  let desc := sw_string v "description" in
  let req := sw_strings v "required" in
  if t =?s "string" then
    Ok (mkOas "" t (sw_string v "format") desc (sw_string v "pattern") None None
          (if sw_has v "minLength" then to_uint64 (as_int64 (sw_get v "minLength")) else 0%Z)
          (if sw_has v "maxLength" then Some (to_uint64 (as_int64 (sw_get v "maxLength"))) else None)
          (match sw_strings v "enum" with [] => None | l => Some l end) None None None req [])
  else if (t =?s "integer") || (t =?s "number") then
    Ok (mkOas "" t (sw_string v "format") desc ""
          (if sw_has v "min" then Some (as_float64 (sw_get v "min")) else None)
          (if sw_has v "max" then Some (as_float64 (sw_get v "max")) else None) 0%Z None None None None None req [])
  else if t =?s "boolean" then Ok (mkOas "" t "" desc "" None None 0%Z None None None None None req [])
  else if sw_has v "$ref" then
    Ok (mkOas (v3_ref (sw_string v "$ref")) t "" desc "" None None 0%Z None None None None None req [])
  else Panic.
(** import_swagger.go:192-250 *)
Fixpoint v3_schema (v : value) : result unit oas :=
  match v with
  | VStr s => Ok (oas_simple s "" "")
  | VMap l =>
      if sw_string v "type" =?s "object" then
        ps <- (fix properties (m : list (string * value)) : result unit (list (string * oas)) :=
                 match m with
                 | [] => Ok []
                 | (k, x) :: r =>
                     if "properties" =?s k then
                       match x with
                       | VMap ps =>
                           (fix go (ps : list (string * value)) : result unit (list (string * oas)) :=
                              match ps with
                              | [] => Ok []
                              | (n, p) :: r => s <- v3_schema p ;; q <- go r ;; Ok ((n, s) :: q)
                              end) ps
                       | _ => Ok []
                       end
                     else properties r
                 end) l ;;
        Ok (mkOas "" "object" "" (sw_string v "description") "" None None 0%Z None None None None (Some ps) (sw_strings v "required") [])
      else if sw_string v "type" =?s "array" then
        i <- (fix items (m : list (string * value)) : result unit oas :=
                match m with
                | [] => Panic
                | (k, x) :: r => if "items" =?s k then v3_schema x else items r
                end) l ;;
        Ok (mkOas "" "array" "" (sw_string v "description") "" None None 0%Z None None (Some i) None None (sw_strings v "required") [])
      else v3_leaf v
  | _ => Panic
  end.
Fixpoint v3_schemas (l : list (string * value)) : result unit (list (string * oas)) :=
  match l with
  | [] => Ok []
  | (n, v) :: r => s <- v3_schema v ;; q <- v3_schemas r ;; Ok ((n, s) :: q)
  end.
(** import_swagger.go:164-179: the schema of "application/json", if that is among the media types *)
Definition v3_content (media : list string) (v : value) : result unit (option oas) :=
  match v with
  | VNil => Ok None
  | _ => s <- v3_schema v ;; Ok (if str_mem "application/json" media then Some s else None)
  end.
(** import_swagger.go:100-124.  A later body replaces an earlier one. *)
Fixpoint v3_params (consumes : list string) (ps : list value) (body : option (string * oas)) (req : bool)
  : result unit (list oparam * (option (string * oas) * bool)) :=
  match ps with
  | [] => Ok ([], (body, req))
  | p :: r =>
      if sw_string p "in" =?s "body" then
        c <- v3_content consumes (sw_get p "schema") ;;
        v3_params consumes r (option_map (fun s => (sw_string p "description", s)) c) (as_bool (sw_get p "required"))
      else
        s <- v3_schema (if sw_string p "type" =?s "" then sw_get p "schema" else VStr (sw_string p "type")) ;;
        '(q, b) <- v3_params consumes r body req ;;
        Ok (mkOParam (sw_string p "in") (sw_string p "name") (as_bool (sw_get p "required")) "" s :: q, b)
  end.
(** import_swagger.go:149-162 *)
Definition v3_header (h : string * value) : string * (string * oas) :=
  (fst h, (sw_string (snd h) "description", oas_simple (sw_string (snd h) "type") "" "")).
(** import_swagger.go:129-147 *)
Fixpoint v3_responses (produces : list string) (rs : list (string * value)) : result unit (list (string * oresponse)) :=
  match rs with
  | [] => Ok []
  | (k, v) :: r =>
      c <- v3_content produces (sw_get v "schema") ;;
      q <- v3_responses produces r ;;
      Ok ((k, mkOResp (sw_string v "description") (map v3_header (sw_map v "headers")) c) :: q)
  end.
Definition or_default (l dflt : list string) : list string := match l with [] => dflt | _ => l end.
(** import_swagger.go:85-139 *)
Definition v3_operation (consumes produces : list string) (v : value) : result unit (option ooperation) :=
  match v with
  | VNil => Ok None
  | _ =>
      '(ps, (body, req)) <- v3_params (or_default (sw_strings v "consumes") consumes) (as_array (sw_get v "parameters")) None false ;;
      rs <- v3_responses (or_default (sw_strings v "produces") produces) (sw_map v "responses") ;;
      Ok (Some (mkOOp (sw_string v "operationId") (sw_string v "summary") (sw_strings v "tags") ps body rs req))
  end.
(** import_swagger.go:67-83 *)
Definition v3_methods : list (string * string) :=
  [("get", "GET"); ("delete", "DELETE"); ("put", "PUT"); ("post", "POST"); ("patch", "PATCH"); ("head", "HEAD")].
Fixpoint v3_item (consumes produces : list string) (v : value) (ms : list (string * string)) : result unit pathitem :=
  match ms with
  | [] => Ok []
  | (k, mth) :: r =>
      o <- v3_operation consumes produces (sw_get v k) ;;
      q <- v3_item consumes produces v r ;;
      Ok (match o with Some op => (mth, op) :: q | None => q end)
  end.
Fixpoint v3_paths (consumes produces : list string) (l : list (string * value)) : result unit (list (string * pathitem)) :=
  match l with
  | [] => Ok []
  | (p, v) :: r => i <- v3_item consumes produces v v3_methods ;; q <- v3_paths consumes produces r ;; Ok ((p, i) :: q)
  end.
(** import_swagger.go:252-288; externalDocs, contact and termsOfService are not looked at later *)
Definition v3_info (v : value) : oinfo :=
  let i := sw_get v "info" in
  mkInfo "3.0.0" (sw_string i "title") (sw_string i "description") (sw_string i "version")
    (Some (sw_string (sw_get i "license") "name", sw_string (sw_get i "license") "url"))
    (if sw_has v "host" then ["https://" +++ sw_string v "host" +++ sw_string v "basePath"] else []).
(** import_swagger.go:37-58, 181-190 *)
Definition v3_doc (v : value) : result unit (oinfo * oasdoc) :=
  if sw_string v "swagger" =?s "2.0" then
    ss <- v3_schemas (sw_map v "definitions") ;;
    ps <- v3_paths (sw_strings v "consumes") (sw_strings v "produces") (sw_map v "paths") ;;
    Ok (v3_info v, mkDoc ss ps)
  else Err tt.
(** import_swagger.go:14-35: [text] is what the file decodes to, [None] if it cannot be read or decoded into a map
    (null decodes into an empty one) *)
Definition load_swagger (text : option (list (string * value))) : result unit (oinfo * oasdoc) :=
  match text with Some l => v3_doc (VMap l) | None => Err tt end.
Definition is_valid_swagger (text : option (list (string * value))) : result unit bool :=
  match load_swagger text with Ok _ => Ok true | Err _ => Ok false | Panic => Panic | OutOfFuel => OutOfFuel end.
(** import_swagger.go:290-318; [name] is made of the path *)
Definition import_swagger (name : string) (text : option (list (string * value))) : result unit model :=
  '(i, doc) <- load_swagger text ;; to_sadl name i doc.
