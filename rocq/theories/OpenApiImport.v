(** openapi/import_openapi.go: an OpenAPI document read as a schema, and the head of a document that
    openapi/export_openapi.go writes.  The documents are those of OpenApi.v: every parameter, header and body has a
    schema, the only content type is "application/json", and there is a Components object.  Go maps are met in
    any order; here in the order of the list. *)
From Verif Require Import GoStr Outcome Value Schema Misc Model OpenApi.

(** openapi/model.go Info, License (name, url) and the URLs of the Servers *)
Record oinfo := mkInfo {
  oi_openapi : string; oi_title : string; oi_desc : string; oi_version : string;
  oi_license : option (string * string); oi_servers : list string }.

(** [annotations[k]] of a Go map, "" when absent *)
Definition anno (k : string) (l : annos) : string := match get k l with Some v => v | None => "" end.
(** export_openapi.go:35-65 *)
Definition export_info (sch : schema) : oinfo :=
  let url := anno "x_license_url" (sc_annos sch) in
  let name := anno "x_license_name" (sc_annos sch) in
  mkInfo "3.0.0" (sc_name sch) (sc_comment sch) (if sc_version sch =?s "" then "dev" else sc_version sch)
    (if negb (url =?s "") || negb (name =?s "") then Some (name, url) else None)
    ("http://localhost:8000" :: match get "x_server" (sc_annos sch) with Some u => [u] | None => [] end).

(** import_openapi.go:388-391: every match of "[^a-zA-Z_][^a-zA-Z_0-9]*" is taken out.  [skip] is set
    within a match. *)
Fixpoint take_out (skip : bool) (s : string) : string :=
  match s with
  | EmptyString => ""
  | String c r =>
      if skip && negb (is_letter c || Ascii.eqb c "_" || is_digit c) then take_out true r
      else if is_letter c || Ascii.eqb c "_" then String c (take_out false r)
      else take_out true r
  end.
Definition make_identifier (s : string) : string := take_out false s.

Local Open Scope Z_scope.
(** [strconv.Atoi]: an optional sign and digits, within an int *)
Fixpoint digits_value (acc : Z) (s : string) : option Z :=
  match s with
  | EmptyString => Some acc
  | String c r => if is_digit c then digits_value (acc * 10 + (Z.of_nat (nat_of_ascii c) - 48)) r else None
  end.
Definition unsigned (s : string) : option Z := match s with EmptyString => None | _ => digits_value 0 s end.
Definition atoi (s : string) : option Z :=
  let v := match s with
           | String c r => if Ascii.eqb c "-" then option_map Z.opp (unsigned r)
                           else if Ascii.eqb c "+" then unsigned r else unsigned s
           | EmptyString => None
           end in
  match v with
  | Some z => if (- 2 ^ 63 <=? z) && (z <? 2 ^ 63) then Some z else None
  | None => None
  end.
(** [int32(n)] *)
Definition to_int32 (z : Z) : Z := let u := z mod 2 ^ 32 in if u <? 2 ^ 31 then u else u - 2 ^ 32.
Local Open Scope nat_scope.

(** import_openapi.go:675-693 *)
Definition primitive_type (t : string) : result unit string :=
  if t =?s "string" then Ok "String"
  else if t =?s "number" then Ok "Decimal"
  else if t =?s "integer" then Ok "Int32"
  else if t =?s "array" then Ok "Array"
  else if t =?s "object" then Ok "Struct"
  else if t =?s "boolean" then Ok "Bool"
  else Panic.
(** import_openapi.go:445-476; the values of an enum are strings here (the error at 471 does not occur) *)
Definition param_type (s : oas) : result unit typespec :=
  if negb (oas_type_ref s =?s "") then Ok (ts_of (oas_type_ref s))
  else
    t <- primitive_type (o_type s) ;;
    if t =?s "Struct" then Panic
    else
      let items := if t =?s "Array" then
                     match o_items s with
                     | None => "Any"
                     | Some i => if o_type i =?s "string" then "String" else "Any"
                     end
                   else "" in
      Ok (ts_fill t "" (match o_enum s with Some (v :: l) => Some (v :: l) | _ => None end) None None [] [] None None items).
(** import_openapi.go:421-478: one parameter and what it adds to the query part of the path *)
Definition convert_param (path : string) (p : oparam) : result unit (paramspec * list string) :=
  let name := make_identifier (op_pname p) in
  let spec h q isp := ts <- param_type (op_schema p) ;;
    Ok (mkParam h q isp (mkField name (op_desc p) [] (op_req p) VNil ts)) in
  if op_in p =?s "query" then
    r <- spec "" (op_pname p) false ;; Ok (r, [op_pname p +++ "={" +++ name +++ "}"])
  else if op_in p =?s "path" then
    if contains ("{" +++ name +++ "}") path then r <- spec "" "" true ;; Ok (r, []) else Panic
  else if op_in p =?s "header" then r <- spec (op_pname p) "" false ;; Ok (r, [])
  else if op_in p =?s "cookie" then Err tt
  else r <- spec "" "" false ;; Ok (r, []).
Fixpoint convert_params (path : string) (ps : list oparam) : result unit (list paramspec * list string) :=
  match ps with
  | [] => Ok ([], [])
  | p :: r =>
      '(i, q) <- convert_param path p ;;
      '(is, qs) <- convert_params path r ;;
      Ok (i :: is, q ++ qs)
  end.
(** import_openapi.go:400-418: the first tag that is not empty names the resource, the others are put
    together; only tags that come after the resource count *)
Fixpoint convert_tags (rez tmp : string) (tags : list string) : string * string :=
  match tags with
  | [] => (rez, tmp)
  | t :: r => if rez =?s "" then convert_tags t tmp r
              else if tmp =?s "" then convert_tags rez t r
              else convert_tags rez (tmp +++ "," +++ t) r
  end.
(** import_openapi.go:482-503 *)
Definition convert_body (mth : string) (b : option (string * oas)) (req : bool) : list paramspec :=
  if str_mem mth ["POST"; "PUT"; "PATCH"] then
    match b with
    | Some (d, s) =>
        if negb (oas_type_ref s =?s "") then [mkParam "" "" false (mkField "body" d [] req VNil (ts_of (oas_type_ref s)))] else []
    | None => []
    end
  else [].
(** import_openapi.go:507-513: the first response in the order of the map *)
Definition success (st : string) : bool := has_prefix "2" st || has_prefix "3" st.
Definition expected_status (rs : list (string * oresponse)) : string :=
  match find (fun kr => success (fst kr)) rs with Some (k, _) => k | None => "default" end.
(** import_openapi.go:546-550 and 559-563: the type of a header or of a body; the error is dropped *)
Definition output_type (s : oas) : result unit typespec :=
  if negb (o_ref s =?s "") then Ok (ts_of (oas_type_ref s)) else convert_oas s.
Definition strip_x (s : string) : string := if has_prefix "x-" s || has_prefix "X-" s then sdrop 2 s else s.
Fixpoint convert_headers (hs : list (string * (string * oas))) : result unit (list paramspec) :=
  match hs with
  | [] => Ok []
  | (h, (d, s)) :: r =>
      ts <- output_type s ;;
      l <- convert_headers r ;;
      Ok (mkParam h "" false (mkField (make_identifier (strip_x h)) d [] false VNil ts) :: l)
  end.
Definition convert_expected (status : string) (r : oresponse) : result unit expectedspec :=
  code <- (if negb (status =?s "default") && negb (contains "X" status) then
             match atoi status with Some z => Ok z | None => Err tt end
           else Ok 200%Z) ;;
  hs <- convert_headers (or_headers r) ;;
  bs <- match or_body r with
        | None => Ok []
        | Some s => ts <- output_type s ;; Ok [mkParam "" "" false (mkField "body" "" [] false VNil ts)]
        end ;;
  Ok (mkExp (hs ++ bs) (to_int32 code) (or_desc r) []).
(** import_openapi.go:573-605 *)
Definition convert_exception (status : string) (r : oresponse) : result unit exceptionspec :=
  st <- (if status =?s "default" then Ok "0" else if contains "X" status then Panic else Ok status) ;;
  match atoi st with
  | None => Err tt
  | Some z =>
      t <- match or_body r with
           | None => Ok ""
           | Some s => if negb (o_ref s =?s "") then Ok (oas_type_ref s) else Panic
           end ;;
      Ok (mkExc t (to_int32 z) (or_desc r) [])
  end.
Fixpoint convert_exceptions (expected : string) (rs : list (string * oresponse)) : result unit (list exceptionspec) :=
  match rs with
  | [] => Ok []
  | (k, r) :: rest =>
      if k =?s expected then convert_exceptions expected rest
      else x <- convert_exception k r ;; xs <- convert_exceptions expected rest ;; Ok (x :: xs)
  end.
(** import_openapi.go:393-609 *)
Definition convert_path (path : string) (op : ooperation) (mth : string) : result unit httpdef :=
  let '(rez, tmp) := convert_tags "" "" (oo_tags op) in
  '(is, qs) <- convert_params path (oo_params op) ;;
  let ins := is ++ convert_body mth (oo_body op) (oo_bodyreq op) in
  let st := expected_status (oo_responses op) in
  match get st (oo_responses op) with
  | None => Err tt
  | Some r =>
      e <- convert_expected st r ;;
      xs <- convert_exceptions st (oo_responses op) ;;
      Ok (mkHttp (oo_id op) rez (oo_summary op) (if tmp =?s "" then [] else [("x_tags", tmp)]) mth
            (match qs with [] => path | _ => path +++ "?" +++ join "&" qs end) ins (Some e) xs)
  end.
(** import_openapi.go:124, 177-195 and 611-638 *)
Definition import_methods : list string := ["GET"; "PUT"; "POST"; "DELETE"; "HEAD"].
Fixpoint import_item (tmpl : string) (pi : pathitem) (mths : list string) : result unit (list httpdef) :=
  match mths with
  | [] => Ok []
  | mth :: r =>
      match get mth pi with
      | None => import_item tmpl pi r
      | Some op =>
          if has_prefix "x-" tmpl then import_item tmpl pi r
          else h <- convert_path tmpl op mth ;; hs <- import_item tmpl pi r ;; Ok (h :: hs)
      end
  end.
Fixpoint import_paths (paths : list (string * pathitem)) : result unit (list httpdef) :=
  match paths with
  | [] => Ok []
  | (tmpl, pi) :: r => hs <- import_item tmpl pi import_methods ;; rest <- import_paths r ;; Ok (hs ++ rest)
  end.
(** import_openapi.go:217-226 *)
Definition valid_sadl_name (n : string) (s : oas) : string :=
  if n =?s "Timestamp" then if o_type s =?s "string" then "" else n
  else if n =?s "Decimal" then "" else n.
(** import_openapi.go:144-174 *)
Fixpoint import_types (all ss : list (string * oas)) : result unit (list typedef) :=
  match ss with
  | [] => Ok []
  | (n, s) :: r =>
      let name := valid_sadl_name n s in
      if name =?s "" then import_types all r
      else
        let t := oas_type_ref s in
        ts <- (if negb (t =?s "") then match get t all with Some d => convert_oas d | None => Panic end else convert_oas s) ;;
        tds <- import_types all r ;;
        Ok (mkTD name (if negb (t =?s "") then "" else o_desc s) [] ts :: tds)
  end.
(** import_openapi.go:126-215; the examples that convertOasType collects are in OasTake.v *)
Definition import_annos (i : oinfo) : annos :=
  let a := [("x_openapi_version", oi_openapi i)] in
  let a := fold_left (fun a u => put "x_server" u a) (oi_servers i) a in
  match oi_license i with
  | None => a
  | Some (n, u) =>
      let a := if negb (n =?s "") then put "x_license_name" n a else a in
      if negb (u =?s "") then put "x_license_url" u a else a
  end.
Definition import_schema (name : string) (i : oinfo) (doc : oasdoc) : result unit schema :=
  let sym := negb (oi_title i =?s "") && is_symbol (oi_title i) in
  tds <- import_types (od_schemas doc) (od_schemas doc) ;;
  hs <- import_paths (od_paths doc) ;;
  Ok (mkSchema "" (if sym then oi_title i else name) "" (oi_version i)
        (if sym || (oi_title i =?s "") then oi_desc i else oi_title i +++ " - " +++ oi_desc i)
        tds [] [] hs "" (import_annos i)).
Definition to_sadl (name : string) (i : oinfo) (doc : oasdoc) : result unit model :=
  sch <- import_schema name i doc ;;
  match new_model sch with Ok m => Ok m | _ => Err tt end.
