(** openapi/export_openapi.go and openapi/import_openapi.go: a model written as an OpenAPI 3 document, and
    OpenAPI schemas read back as types. *)
From Coq Require Import DecimalString.
From Verif Require Import GoStr Outcome Value Schema Misc Model.

(** openapi/model.go Schema, the fields that the two files use apart from Example.  A Go map from names to
    schemas is a list of pairs without repeated names, in the order of insertion.  [MinLength] is a uint64 that
    is 0 when absent.  [o_props = None] is a nil map. *)
Inductive oas := mkOas {
  o_ref : string; o_type : string; o_format : string; o_desc : string; o_pattern : string;
  o_min : option decimal; o_max : option decimal;
  o_minlen : Z; o_maxlen : option Z;
  o_enum : option (list string);
  o_items : option oas; o_addl : option oas;
  o_props : option (list (string * oas)); o_required : list string;
  o_oneof : list oas }.
Definition oas_simple (t f d : string) : oas := mkOas "" t f d "" None None 0%Z None None None None None [] [].
Definition schema_prefix : string := "#/components/schemas/".
Definition oas_ref (n : string) : oas :=
  mkOas (schema_prefix +++ n) "" "" "" "" None None 0%Z None None None None None [] [].
Definition oas_number (t f d : string) (mn mx : option decimal) : oas :=
  mkOas "" t f d "" mn mx 0%Z None None None None None [] [].
Definition oas_array (d : string) (i : oas) : oas :=
  mkOas "" "array" "" d "" None None 0%Z None None (Some i) None None [] [].
Definition oas_map (d : string) (i : oas) : oas :=
  mkOas "" "object" "" d "" None None 0%Z None None None (Some i) None [] [].
Definition oas_object (d : string) (ps : list (string * oas)) (req : list string) : oas :=
  mkOas "" "object" "" d "" None None 0%Z None None None None (Some ps) req [].

(** [m[k] = v] on a Go map *)
Fixpoint put {A} (k : string) (v : A) (l : list (string * A)) : list (string * A) :=
  match l with
  | [] => [(k, v)]
  | (k', v') :: r => if k =?s k' then (k, v) :: r else (k', v') :: put k v r
  end.
Fixpoint get {A} (k : string) (l : list (string * A)) : option A :=
  match l with
  | [] => None
  | (k', v) :: r => if k =?s k' then Some v else get k r
  end.

Local Open Scope Z_scope.
(** [uint64(n)] and [int64(n)] *)
Definition to_uint64 (z : Z) : Z := z mod 2 ^ 64.
Definition to_int64 (z : Z) : Z := let u := z mod 2 ^ 64 in if u <? 2 ^ 63 then u else u - 2 ^ 64.
Local Open Scope nat_scope.

(** export_openapi.go:520-543 *)
Definition oas_numeric (t : string) : string * string * string :=
  if str_mem t ["Int8"; "Int16"] then ("integer", "int32", t)
  else if t =?s "Int32" then ("integer", "int32", "")
  else if t =?s "Int64" then ("integer", "int64", "")
  else if t =?s "Float32" then ("number", "float", "")
  else if t =?s "Float64" then ("number", "double", "")
  else if t =?s "Decimal" then ("number", "", t)
  else ("", "", "").

Definition number_types : list string := ["Int8"; "Int16"; "Int32"; "Int64"; "Float32"; "Float64"; "Decimal"].

Section Export.
(** [Decimal.AsFloat64] (decimal.go), the nearest float64: rounding is a parameter *)
Context (f64 : decimal -> decimal) (m : model).

Definition num_schema (ts : typespec) : oas :=
  let '(t, f, d) := oas_numeric (ts_type ts) in
  oas_number t f d (option_map f64 (ts_min ts)) (option_map f64 (ts_max ts)).
Definition string_schema (ts : typespec) : oas :=
  mkOas "" "string" "" "" (ts_pattern ts) None None
    (match ts_minsize ts with Some z => to_uint64 z | None => 0%Z end)
    (option_map to_uint64 (ts_maxsize ts)) None None None None [] [].

(** export_openapi.go:545-672.  The recursion follows the item types through the model and need not end
    ([type A Array<A>]); the fuel bounds its depth. *)
Fixpoint oas_schema (fuel : nat) (ts : typespec) (name : string) : result unit oas :=
  match fuel with
  | 0 => OutOfFuel
  | S fuel =>
      let t := ts_type ts in
      if t =?s "Bool" then Ok (oas_simple "boolean" "" "")
      else if str_mem t number_types then
        if (t =?s "Float64") && negb (name =?s "") then Panic else Ok (num_schema ts)
      else if t =?s "Bytes" then Ok (oas_simple "string" "byte" "")
      else if t =?s "String" then Ok (string_schema ts)
      else if t =?s "Timestamp" then Ok (oas_simple "string" "date-time" "")
      else if t =?s "UnitValue" then Ok (oas_simple "string" "" "UnitValue")
      else if t =?s "UUID" then Ok (oas_simple "string" "" "UUID")
      else if t =?s "Enum" then Ok (oas_ref name)
      else if t =?s "Array" then
        match find_type m (ts_items ts) with
        | None => Panic
        | Some td => i <- oas_schema fuel (td_spec td) (ts_items ts) ;; Ok (oas_array "" i)
        end
      else if t =?s "Map" then
        match find_type m (ts_items ts) with
        | None => Panic
        | Some td => i <- oas_schema fuel (td_spec td) "" ;; Ok (oas_map "" i)
        end
      else if t =?s "Struct" then
        if negb (name =?s "") then Ok (oas_ref name)
        else
          ps <- (fix go (fs : list fielddef) (acc : list (string * oas)) : result unit (list (string * oas)) :=
                   match fs with
                   | [] => Ok acc
                   | f :: r => s <- oas_schema fuel (fd_spec f) "" ;; go r (put (fd_name f) s acc)
                   end) (ts_fields ts) [] ;;
          Ok (oas_object "" ps [])
      else Ok (oas_ref t)
  end.

(** export_openapi.go:428-449 *)
Fixpoint export_fields (fuel : nat) (fs : list fielddef) (req : list string) (ps : list (string * oas))
  : result unit (list string * list (string * oas)) :=
  match fs with
  | [] => Ok (req, ps)
  | f :: r =>
      let req := if fd_required f then req ++ [fd_name f] else req in
      s <- oas_schema fuel (fd_spec f) "" ;;
      export_fields fuel r req (put (fd_name f) s ps)
  end.
Definition export_struct (fuel : nat) (td : typedef) : result unit oas :=
  '(req, ps) <- export_fields fuel (ts_fields (td_spec td)) [] [] ;;
  Ok (oas_object (td_comment td) ps req).
(** export_openapi.go:451-462 *)
Definition export_union (td : typedef) : oas :=
  mkOas "" "" "" (td_comment td) "" None None 0%Z None None None None None []
    (map (fun v => oas_ref (ts_type (uv_spec v))) (ts_variants (td_spec td))).
(** export_openapi.go:464-489 *)
Definition export_array (fuel : nat) (td : typedef) : result unit oas :=
  match find_type m (ts_items (td_spec td)) with
  | None => Panic
  | Some itd => i <- oas_schema fuel (td_spec itd) (ts_items (td_spec td)) ;; Ok (oas_array (td_comment td) i)
  end.
Definition export_map (fuel : nat) (td : typedef) : result unit oas :=
  match find_type m (ts_items (td_spec td)) with
  | None => Panic
  | Some itd => i <- oas_schema fuel (td_spec itd) "" ;; Ok (oas_map (td_comment td) i)
  end.
(** export_openapi.go:491-505, with the format set by the callers at 407-425 *)
Definition export_string (fuel : nat) (td : typedef) (format : option string) : result unit oas :=
  s <- oas_schema fuel (td_spec td) (td_name td) ;;
  Ok (mkOas (o_ref s) (o_type s) (match format with Some f => f | None => o_format s end) (td_comment td) (o_pattern s)
        (o_min s) (o_max s) (o_minlen s) (o_maxlen s)
        (match ts_values (td_spec td) with Some (v :: l) => Some (v :: l) | _ => o_enum s end)
        (o_items s) (o_addl s) (o_props s) (o_required s) (o_oneof s)).
(** export_openapi.go:507-518 *)
Definition export_enum (td : typedef) : oas :=
  mkOas "" "string" "" (td_comment td) "" None None 0%Z None (Some (map ee_symbol (ts_elements (td_spec td))))
    None None None [] [].
(** export_openapi.go:372-426 *)
Definition export_typedef (fuel : nat) (td : typedef) : result unit oas :=
  let t := ts_type (td_spec td) in
  if t =?s "Struct" then export_struct fuel td
  else if t =?s "Array" then export_array fuel td
  else if t =?s "Map" then export_map fuel td
  else if t =?s "String" then export_string fuel td None
  else if t =?s "Bool" then Ok (oas_simple "boolean" "" (td_comment td))
  else if t =?s "Enum" then Ok (export_enum td)
  else if str_mem t number_types then Ok (num_schema (td_spec td))
  else if t =?s "UUID" then export_string fuel td (Some "uuid")
  else if t =?s "Union" then Ok (export_union td)
  else if t =?s "Timestamp" then export_string fuel td (Some "date-time")
  else Err tt.
(** export_openapi.go:66-74 *)
Fixpoint export_types (fuel : nat) (tds : list typedef) (acc : list (string * oas)) : result unit (list (string * oas)) :=
  match tds with
  | [] => Ok acc
  | td :: r => s <- export_typedef fuel td ;; export_types fuel r (put (td_name td) s acc)
  end.

(** openapi/model.go Parameter, Response, Operation: the schema of the "application/json" content is kept
    directly, [None] when there is none; headers are a map from names.  [oo_bodyreq]: Required of the RequestBody,
    which the exporter always sets (export_openapi.go:156-161). *)
Record oparam := mkOParam { op_in : string; op_pname : string; op_req : bool; op_desc : string; op_schema : oas }.
Record oresponse := mkOResp { or_desc : string; or_headers : list (string * (string * oas)); or_body : option oas }.
Record ooperation := mkOOp {
  oo_id : string; oo_summary : string; oo_tags : list string; oo_params : list oparam;
  oo_body : option (string * oas); oo_responses : list (string * oresponse);
  oo_bodyreq : bool }.
(** openapi/model.go PathItem: the operations by method ("GET", "PUT", "DELETE", "POST") *)
Definition pathitem := list (string * ooperation).

(** export_openapi.go:96-110: only one annotation has the key x_tags *)
Definition oas_tags (h : httpdef) : list string :=
  (if negb (h_resource h =?s "") then [h_resource h] else [])
  ++ match get "x_tags" (h_annos h) with Some v => split "," v | None => [] end.
(** export_openapi.go:133-177 *)
Fixpoint oas_inputs (fuel : nat) (ins : list paramspec) (ps : list oparam) (body : option (string * oas))
  : result unit (list oparam * option (string * oas)) :=
  match ins with
  | [] => Ok (ps, body)
  | p :: r =>
      let f := ps_field p in
      s <- oas_schema fuel (fd_spec f) "" ;;
      if ps_path p then oas_inputs fuel r (ps ++ [mkOParam "path" (fd_name f) true (fd_comment f) s]) body
      else if negb (ps_query p =?s "") then
        oas_inputs fuel r (ps ++ [mkOParam "query" (ps_query p) (fd_required f) (fd_comment f) s]) body
      else if negb (ps_header p =?s "") then
        oas_inputs fuel r (ps ++ [mkOParam "header" (ps_header p) (fd_required f) (fd_comment f) s]) body
      else oas_inputs fuel r ps (Some (fd_comment f, s))
  end.
(** export_openapi.go:190-215 *)
Fixpoint oas_outputs (fuel : nat) (outs : list paramspec) (hs : list (string * (string * oas))) (body : option oas)
  : result unit (list (string * (string * oas)) * option oas) :=
  match outs with
  | [] => Ok (hs, body)
  | p :: r =>
      let f := ps_field p in
      s <- oas_schema fuel (fd_spec f) "" ;;
      if negb (ps_header p =?s "") then oas_outputs fuel r (put (ps_header p) (fd_comment f, s) hs) body
      else oas_outputs fuel r hs (Some s)
  end.
(** [fmt.Sprint] of an int32 *)
Definition sprint (z : Z) : string := NilZero.string_of_int (Z.to_int z).
(** export_openapi.go:221-243 *)
Definition oas_exceptions (xs : list exceptionspec) (acc : list (string * oresponse)) : list (string * oresponse) :=
  fold_left (fun acc x =>
    put (if negb (xc_status x =? 0)%Z then sprint (xc_status x) else "default")
        (mkOResp (if xc_comment x =?s "" then "Exceptional response" else xc_comment x) [] (Some (oas_ref (xc_type x)))) acc) xs acc.
(** export_openapi.go:133-244; an action without an expected response is dereferenced as nil at 181 *)
Definition oas_operation (fuel : nat) (h : httpdef) : result unit ooperation :=
  '(ps, body) <- oas_inputs fuel (h_inputs h) [] None ;;
  match h_expected h with
  | None => Panic
  | Some e =>
      '(hs, ob) <- oas_outputs fuel (xp_outputs e) [] None ;;
      let r := mkOResp (if xp_comment e =?s "" then "Expected response" else xp_comment e) hs ob in
      Ok (mkOOp (h_name h) (h_comment h) (oas_tags h) ps body
            (oas_exceptions (h_exceptions h) [(sprint (xp_status e), r)]) true)
  end.
(** export_openapi.go:79-83: up to the first question mark *)
Fixpoint cut_query (s : string) : string :=
  match s with
  | EmptyString => ""
  | String c r => if Ascii.eqb c "?" then "" else String c (cut_query r)
  end.
Definition oas_path (h : httpdef) : string := cut_query (sc_base (m_schema m) +++ h_path h).
Definition oas_methods : list string := ["GET"; "PUT"; "DELETE"; "POST"].
(** export_openapi.go:77-245.  The duplicate check comes before the inputs and outputs are read; the operation
    of another method is made and forgotten, leaving its path. *)
Fixpoint export_http (fuel : nat) (hs : list httpdef) (paths : list (string * pathitem))
  : result unit (list (string * pathitem)) :=
  match hs with
  | [] => Ok paths
  | h :: r =>
      let p := oas_path h in
      let pi := match get p paths with Some pi => pi | None => [] end in
      if str_mem (h_method h) oas_methods then
        match get (h_method h) pi with
        | Some _ => Err tt
        | None => op <- oas_operation fuel h ;; export_http fuel r (put p (put (h_method h) op pi) paths)
        end
      else op <- oas_operation fuel h ;; export_http fuel r (put p pi paths)
  end.
(** export_openapi.go:33-245.  The examples that follow (246-345), in OasExamples.v, only set Example fields of the
    schemas, parameters and bodies made here, or panic; the title, the servers and the licence are not modelled here. *)
Record oasdoc := mkDoc { od_schemas : list (string * oas); od_paths : list (string * pathitem) }.
Definition export_oas (fuel : nat) : result unit oasdoc :=
  ss <- export_types fuel (sc_types (m_schema m)) [] ;;
  ps <- export_http fuel (sc_http (m_schema m)) [] ;;
  Ok (mkDoc ss ps).
End Export.

(** ** Reading schemas back *)
(** import_openapi.go:228-236 *)
Definition oas_type_ref (s : oas) : string :=
  if negb (o_ref s =?s "") then
    if has_prefix schema_prefix (o_ref s) then sdrop (String.length schema_prefix) (o_ref s) else o_ref s
  else "".
(** import_openapi.go:371-378 *)
Definition contains_string (l : list string) (s : string) : bool := str_mem s l.

Definition ts_fill (t pattern : string) (values : option (list string)) (mns mxs : option Z) (els : list enumelt)
    (fields : list fielddef) (mn mx : option decimal) (items : string) : typespec :=
  mkTS t pattern values mns mxs fields els mn mx items "" [] "" "" "".
(** import_openapi.go:251-300 *)
Definition convert_string (s : oas) : typespec :=
  let values := match o_enum s with Some l => l | None => [] end in
  if match o_enum s with Some l => forallb is_symbol l | None => false end then
    ts_fill "Enum" "" None None None (map (fun x => mkElt x "" []) values) [] None None ""
  else
    let vs := match values with [] => None | _ => Some values end in
    if o_format s =?s "uuid" then ts_fill "UUID" "" vs None None [] [] None None ""
    else if o_format s =?s "date-time" then ts_fill "Timestamp" "" vs None None [] [] None None ""
    else ts_fill "String" (o_pattern s) vs
           (if (0 <? o_minlen s)%Z then Some (to_int64 (o_minlen s)) else None)
           (option_map to_int64 (o_maxlen s)) [] [] None None "".
Definition integer_name (f : string) : string :=
  if f =?s "int8" then "Int8" else if f =?s "int16" then "Int16" else if f =?s "int32" then "Int32" else "Int64".
(** import_openapi.go:238-369 with [EnumTypes] as it is initialised; the examples collected on the way are not
    modelled.  Properties are met in the order of a Go map, that is in any order; here in the order of the list.
    Every enum value is a string here (the error at 266 does not occur).  [NewDecimal] of a float64 is that
    float64. *)
Fixpoint convert_oas (s : oas) : result unit typespec :=
  let t := o_type s in
  if t =?s "boolean" then Ok (ts_of "Bool")
  else if t =?s "string" then Ok (convert_string s)
  else if t =?s "array" then
    match o_items s with
    | None => Ok (ts_of "Array")
    | Some i =>
        if negb (o_ref i =?s "") then Ok (ts_fill "Array" "" None None None [] [] None None (oas_type_ref i))
        else
          match convert_oas i with
          | Ok its => Ok (ts_fill "Array" "" None None None [] [] None None (ts_type its))
          | Err _ => Ok (ts_of "Array")
          | Panic => Panic
          | OutOfFuel => OutOfFuel
          end
    end
  else if t =?s "number" then Ok (ts_fill "Decimal" "" None None None [] [] (o_min s) (o_max s) "")
  else if t =?s "integer" then Ok (ts_fill (integer_name (o_format s)) "" None None None [] [] (o_min s) (o_max s) "")
  else if (t =?s "") || (t =?s "object") then
    match o_props s with
    | None => Ok (ts_of "Struct")
    | Some ps =>
        fs <- (fix go (l : list (string * oas)) : result unit (list fielddef) :=
                 match l with
                 | [] => Ok []
                 | (n, f) :: r =>
                     ft <- (if negb (oas_type_ref f =?s "") then Ok (ts_of (oas_type_ref f)) else convert_oas f) ;;
                     rest <- go r ;;
                     Ok (mkField n (o_desc f) [] (contains_string (o_required s) n) VNil ft :: rest)
                 end) ps ;;
        Ok (ts_fill "Struct" "" None None None [] fs None None "")
    end
  else Panic.
