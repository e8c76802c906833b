(** smithy/export_smithy.go (FromSADL) and smithy/import_smithy.go (ToSadl): a model written as a Smithy
    document, and a Smithy document read as a model.  The packages github.com/boynton/smithy and
    github.com/boynton/data are not in the repository.  Assumed of them: [Shapes], [Members] and [Object] are maps
    that keep the order in which keys were first put; reading from a nil one is reading from an empty one;
    [AST.GetShape] is [Shapes.Get]; a document that is written as JSON and read again has the same shapes, with
    its objects as Go maps and its arrays as []interface{}.  What becomes of numbers and of values that are
    asked for as a truth value is left open: see [slib]. *)
From Verif Require Import GoStr Outcome Value Schema Misc Model OpenApi Smithy.

(** The value of a trait, or of a key of the metadata. *)
Inductive tval :=
| TBool (b : bool)
| TStr (s : string)
| TInt (z : Z)
| TDec (d : decimal)
| TVal (v : value)                     (** data of an example *)
| TArr (l : list tval)
| TObj (l : list (string * tval)).
Definition traits := list (string * tval).
Record member := mkMem { mb_target : string; mb_traits : traits }.
(** The shapes of the document; a nil [Members] is an empty one. *)
Record shape := mkShape {
  sh_type : string; sh_version : string; sh_traits : traits;
  sh_members : list (string * member);
  sh_member : option member; sh_key : option member; sh_value : option member;
  sh_input : option string; sh_output : option string;
  sh_errors : list string; sh_operations : list string }.
Record ast := mkAst { as_meta : traits; as_shapes : list (string * shape) }.

Definition set_traits (s : shape) (t : traits) : shape :=
  mkShape (sh_type s) (sh_version s) t (sh_members s) (sh_member s) (sh_key s) (sh_value s)
    (sh_input s) (sh_output s) (sh_errors s) (sh_operations s).
Definition set_members (s : shape) (ms : list (string * member)) : shape :=
  mkShape (sh_type s) (sh_version s) (sh_traits s) ms (sh_member s) (sh_key s) (sh_value s)
    (sh_input s) (sh_output s) (sh_errors s) (sh_operations s).
(** export_smithy.go:489-501 and [Object.Put] *)
Definition add_trait (k : string) (v : tval) (s : shape) : shape := set_traits s (put k v (sh_traits s)).
Definition add_mtrait (k : string) (v : tval) (m : member) : member := mkMem (mb_target m) (put k v (mb_traits m)).

(** ** Writing: FromSADL *)
Section Export.
(** the namespace, and the suffixes of input and output shapes: "Request" and "Response", or "Input" and
    "Output" with the option useInputOutput (export_smithy.go:12-19) *)
Context (ns insuf outsuf : string).

Definition simple_shape (t : string) (tr : traits) (ms : list (string * member)) : shape :=
  mkShape t "" tr ms None None None None None [] [].
(** export_smithy.go:750-776 *)
Definition length_trait (mn mx : option Z) : traits :=
  match mn, mx with
  | None, None => []
  | _, _ => [("smithy.api#length",
       TObj ((match mn with Some z => [("min", TInt z)] | None => [] end)
             ++ match mx with Some z => [("max", TInt z)] | None => [] end))]
  end.
Definition range_trait (mn mx : option decimal) : traits :=
  match mn, mx with
  | None, None => []
  | _, _ => [("smithy.api#range",
       TObj ((match mn with Some z => [("min", TDec z)] | None => [] end)
             ++ match mx with Some z => [("max", TDec z)] | None => [] end))]
  end.
(** export_smithy.go:720-727; only called with Values, the Elements of a String are empty *)
Definition enum_trait (vs : list string) : tval := TArr (map (fun s => TObj [("value", TStr s)]) vs).
(** export_smithy.go:655-677 *)
Definition number_shape (t : string) : string :=
  if t =?s "Int8" then "byte" else if t =?s "Int16" then "short" else if t =?s "Int32" then "integer"
  else if t =?s "Int64" then "long" else if t =?s "Float32" then "float" else if t =?s "Float64" then "double"
  else if t =?s "Decimal" then "bigDecimal" else "".
Definition shape_of_number (ts : typespec) : shape :=
  simple_shape (number_shape (ts_type ts)) (range_trait (ts_min ts) (ts_max ts)) [].
(** export_smithy.go:638-653; a String with Elements does not come from the parser *)
Definition shape_of_string (ts : typespec) : shape :=
  simple_shape "string"
    (length_trait (ts_minsize ts) (ts_maxsize ts)
     ++ (if ts_pattern ts =?s "" then [] else [("smithy.api#pattern", TStr (ts_pattern ts))])
     ++ match ts_values ts with Some (v :: l) => [("smithy.api#enum", enum_trait (v :: l))] | _ => [] end) [].
(** export_smithy.go:679-685 *)
Definition uuid_pattern : string := "([a-f0-9]{8}(-[a-f0-9]{4}){4}[a-f0-9]{8})".
Definition uuid_shape_def : shape := simple_shape "string" [("smithy.api#pattern", TStr uuid_pattern)] [].
(** export_smithy.go:687-705 *)
Definition enum_member (e : enumelt) : member :=
  mkMem "smithy.api#Unit" (match get "x_enumValue" (ee_annos e) with Some v => [("smithy.api#enumValue", TStr v)] | None => [] end).
Definition put_all {A B} (name : A -> string) (f : A -> B) (l : list A) : list (string * B) :=
  fold_left (fun acc x => put (name x) (f x) acc) l [].
Definition shape_of_enum (ts : typespec) : shape :=
  simple_shape "enum" [] (put_all ee_symbol enum_member (ts_elements ts)).
(** export_smithy.go:593-618.  [typeReference] never gives "List", "Map" or "Enum" (it gives names with "#"),
    so the cases at 601-606 and the functions at 419-480 are not reached. *)
Definition field_member (f : fielddef) : member :=
  mkMem (type_reference ns (ts_type (fd_spec f))) (if fd_required f then [("smithy.api#required", TBool true)] else []).
Definition shape_of_struct (ts : typespec) : shape :=
  simple_shape "structure" [] (put_all (@fd_name typespec) field_member (ts_fields ts)).
(** export_smithy.go:620-636 *)
Definition variant_member (v : variantdef) : member :=
  mkMem (ensure_namespaced ns (ts_type (uv_spec v))) [("smithy.api#documentation", TStr (uv_comment v))].
Definition shape_of_union (ts : typespec) : shape :=
  simple_shape "union" [] (put_all (@uv_name typespec) variant_member (ts_variants ts)).
(** export_smithy.go:555-572 *)
Definition shape_of_array (ts : typespec) (a : annos) : shape :=
  mkShape (if get_annotation a "x_unique" =?s "true" then "set" else "list") ""
    (length_trait (ts_minsize ts) (ts_maxsize ts)) []
    (Some (mkMem (ensure_namespaced ns (type_reference ns (ts_items ts))) [])) None None None None [] [].
(** export_smithy.go:574-591 *)
Definition shape_of_map (ts : typespec) : shape :=
  mkShape "map" "" [] [] None
    (Some (mkMem (ensure_namespaced ns (type_reference ns (ts_keys ts))) []))
    (Some (mkMem (ensure_namespaced ns (type_reference ns (ts_items ts))) [])) None None [] [].
(** export_smithy.go:503-525; the other kinds panic *)
Definition shape_of_type (ts : typespec) (a : annos) : result unit shape :=
  let t := ts_type ts in
  if str_mem t number_types then Ok (shape_of_number ts)
  else if t =?s "String" then Ok (shape_of_string ts)
  else if t =?s "Enum" then Ok (shape_of_enum ts)
  else if t =?s "Struct" then Ok (shape_of_struct ts)
  else if t =?s "Array" then Ok (shape_of_array ts a)
  else if t =?s "Union" then Ok (shape_of_union ts)
  else if t =?s "Map" then Ok (shape_of_map ts)
  else if t =?s "UUID" then Ok uuid_shape_def
  else Panic.
(** export_smithy.go:529-550; the annotations are a Go map, met here in the order of the list *)
Definition anno_trait (s : shape) (kv : string * string) : shape :=
  let '(k, v) := kv in
  if k =?s "x_tags" then add_trait "smithy.api#tags" (TArr (map TStr (split "," v))) s
  else if k =?s "x_sensitive" then add_trait "smithy.api#sensitive" (TBool true) s
  else if k =?s "x_deprecated" then
    if v =?s "" then s
    else add_trait "smithy.api#deprecated"
           (TObj (match cut "|" v with
                  | Some (a, b) => [("since", TStr a); ("message", TStr b)]
                  | None => [("message", TStr v)]
                  end)) s
  else s.
(** export_smithy.go:526-553 *)
Definition typedef_shape (td : typedef) : result unit shape :=
  s <- shape_of_type (td_spec td) (td_annos td) ;;
  let s := if td_comment td =?s "" then s else add_trait "smithy.api#documentation" (TStr (td_comment td)) s in
  Ok (fold_left anno_trait (td_annos td) s).
Definition id_of (n : string) : string := ns +++ "#" +++ n.
(** export_smithy.go:97-102 *)
Fixpoint write_types (tds : list typedef) (acc : list (string * shape)) : result unit (list (string * shape)) :=
  match tds with
  | [] => Ok acc
  | td :: r => s <- typedef_shape td ;; write_types r (put (id_of (td_name td)) s acc)
  end.

(** export_smithy.go:118-122; [smithy.capitalize] (482-487) is [sadl.Capitalize] *)
Definition action_shape_name (h : httpdef) : string :=
  let n := capitalize (h_name h) in
  if n =?s "" then capitalize (to_lower (h_method h)) +++ "Something" else n.
(** export_smithy.go:730-738 *)
Fixpoint paginated_items (l : list string) (acc : traits) : result unit traits :=
  match l with
  | [] => Ok acc
  | i :: r => match split "=" i with
              | k :: v :: _ => paginated_items r (put k (TStr v) acc)
              | _ => Panic
              end
  end.
Definition paginated_trait (s : string) : result unit tval := l <- paginated_items (split "," s) [] ;; Ok (TObj l).
(** export_smithy.go:740-748 *)
Definition http_trait (path method : string) (code : Z) : tval :=
  TObj ([("uri", TStr path); ("method", TStr method)] ++ if (code =? 0)%Z then [] else [("code", TInt code)]).
(** export_smithy.go:152-166 *)
Definition input_member (p : paramspec) : member :=
  mkMem (type_reference ns (ts_type (fd_spec (ps_field p))))
    (if ps_path p then [("smithy.api#httpLabel", TBool true); ("smithy.api#required", TBool true)]
     else if negb (ps_query p =?s "") then [("smithy.api#httpQuery", TStr (ps_query p))]
     else if negb (ps_header p =?s "") then [("smithy.api#httpHeader", TStr (ps_header p))]
     else [("smithy.api#httpPayload", TBool true)]).
(** export_smithy.go:179-188 *)
Definition output_member (p : paramspec) : member :=
  mkMem (type_reference ns (ts_type (fd_spec (ps_field p))))
    (if negb (ps_header p =?s "") then [("smithy.api#httpHeader", TStr (ps_header p))]
     else [("smithy.api#httpPayload", TBool true)]).
Definition param_name (p : paramspec) : string := fd_name (ps_field p).
Definition params_shape (mark : traits) (f : paramspec -> member) (ps : list paramspec) : shape :=
  simple_shape "structure" mark (put_all param_name f ps).
(** export_smithy.go:213-222 *)
Definition mark_error (status : Z) (s : shape) : shape :=
  let s := add_trait "smithy.api#error" (TStr (http_error_category status))
             (add_trait "smithy.api#httpError" (TInt status) s) in
  match sh_members s with
  | [(k, m)] => set_members s [(k, add_mtrait "smithy.api#httpPayload" (TBool true) m)]
  | _ => s
  end.
(** export_smithy.go:193-227: the names of the errors, and the shapes marked *)
Fixpoint write_errors (xs : list exceptionspec) (acc : list (string * shape)) : result unit (list (string * shape)) :=
  match xs with
  | [] => Ok acc
  | x :: r =>
      match get (id_of (xc_type x)) acc with
      | None => Err tt
      | Some s => write_errors r (put (id_of (xc_type x)) (mark_error (xc_status x) s) acc)
      end
  end.
(** export_smithy.go:126-141 *)
Definition action_traits (base : string) (h : httpdef) : result unit traits :=
  let code := match h_expected h with Some e => xp_status e | None => 200%Z end in
  let t := [("smithy.api#documentation", TStr (h_comment h));
            ("smithy.api#http", http_trait (cut_query (base +++ h_path h)) (h_method h) code)] in
  let t := match get "x_tags" (h_annos h) with
           | Some v => put "smithy.api#tags" (TArr (map TStr (split "," v))) t
           | None => t
           end in
  t <- match get "x_paginated" (h_annos h) with
       | Some v => p <- paginated_trait v ;; Ok (put "smithy.api#paginated" p t)
       | None => Ok t
       end ;;
  Ok (if h_method h =?s "GET" then put "smithy.api#readonly" (TBool true) t
      else if str_mem (h_method h) ["PUT"; "DELETE"] then put "smithy.api#idempotent" (TBool true) t
      else t).
(** export_smithy.go:105-232: the shapes of one action.  A nil Expected is dereferenced at 170. *)
Definition write_action (base : string) (h : httpdef) (acc : list (string * shape)) : result unit (list (string * shape)) :=
  let name := action_shape_name h in
  t <- action_traits base h ;;
  let has_in := match h_inputs h with [] => false | _ => true end in
  let acc := if has_in then put (id_of (name +++ insuf))
                                (params_shape [("smithy.api#input", TBool true)] input_member (h_inputs h)) acc
             else acc in
  match h_expected h with
  | None => Panic
  | Some e =>
      let has_out := match xp_outputs e with [] => false | _ => true end in
      let acc := if has_out then put (id_of (name +++ outsuf))
                                     (params_shape [("smithy.api#output", TBool true)] output_member (xp_outputs e)) acc
                 else acc in
      acc <- write_errors (h_exceptions h) acc ;;
      Ok (put (id_of name)
            (mkShape "operation" "" t [] None None None
               (if has_in then Some (id_of (name +++ insuf)) else None)
               (if has_out then Some (id_of (name +++ outsuf)) else None)
               (map (fun x => id_of (xc_type x)) (h_exceptions h)) []) acc)
  end.
Fixpoint write_actions (base : string) (hs : list httpdef) (acc : list (string * shape)) : result unit (list (string * shape)) :=
  match hs with
  | [] => Ok acc
  | h :: r => acc <- write_action base h acc ;; write_actions base r acc
  end.
(** export_smithy.go:234-282; the exceptions are collected and forgotten *)
Definition op_in_member (f : fielddef) : member := mkMem (type_reference ns (ts_type (fd_spec f))) [].
Definition op_out_member (o : opoutput) : member := mkMem (type_reference ns (ts_type (oo_spec o))) [].
Definition write_operation (o : opdef) (acc : list (string * shape)) : list (string * shape) :=
  let name := capitalize (op_name o) in
  let has_in := match op_inputs o with [] => false | _ => true end in
  let has_out := match op_outputs o with [] => false | _ => true end in
  let acc := if has_in then put (id_of (name +++ insuf))
                                (simple_shape "structure" [] (put_all (@fd_name typespec) op_in_member (op_inputs o))) acc
             else acc in
  let acc := if has_out then put (id_of (name +++ outsuf))
                                 (simple_shape "structure" [] (put_all Schema.oo_name op_out_member (op_outputs o))) acc
             else acc in
  put (id_of name)
    (mkShape "operation" "" [("smithy.api#documentation", TStr (op_comment o))] [] None None None
       (if has_in then Some (id_of (name +++ insuf)) else None)
       (if has_out then Some (id_of (name +++ outsuf)) else None) [] []) acc.
(** export_smithy.go:284-298 *)
Definition operation_ids (sch : schema) : list string :=
  map (fun h => id_of (action_shape_name h)) (sc_http sch)
  ++ map (fun o => id_of (capitalize (op_name o))) (sc_operations sch).
Definition write_service (sch : schema) (acc : list (string * shape)) : list (string * shape) :=
  match operation_ids sch with
  | [] => acc
  | ops =>
      put (id_of (capitalize (sc_name sch)))
        (mkShape "service" (if sc_version sch =?s "" then "0.0" else sc_version sch)
           (if sc_comment sch =?s "" then [] else [("smithy.api#documentation", TStr (sc_comment sch))])
           [] None None None None None [] ops) acc
  end.

(** export_smithy.go:305-347.  The named examples are a Go map, met here in the order in which the names first
    occur.  The suffixes are fixed here (307-308). *)
Definition example_map (v : value) : result unit tval := match v with VMap _ => Ok (TVal v) | _ => Panic end.
Fixpoint request_examples (req : string) (exs : list exampledef) (acc : list (string * traits)) : result unit (list (string * traits)) :=
  match exs with
  | [] => Ok acc
  | ex :: r =>
      if ex_target ex =?s req then
        v <- example_map (ex_example ex) ;;
        request_examples req r
          (put (ex_name ex) (("input", v) :: if ex_comment ex =?s "" then [] else [("documentation", TStr (ex_comment ex))]) acc)
      else request_examples req r acc
  end.
Fixpoint response_examples (req res : string) (xs : list exceptionspec) (exs : list exampledef) (acc : list (string * traits))
  : result unit (list (string * traits)) :=
  match exs with
  | [] => Ok acc
  | ex :: r =>
      if ex_target ex =?s req then response_examples req res xs r acc
      else match get (ex_name ex) acc with
           | None => response_examples req res xs r acc
           | Some d =>
               if ex_target ex =?s res then
                 v <- example_map (ex_example ex) ;;
                 response_examples req res xs r (put (ex_name ex) (put "output" v d) acc)
               else if str_mem (ex_target ex) (map xc_type xs) then
                 v <- example_map (ex_example ex) ;;
                 response_examples req res xs r
                   (put (ex_name ex) (put "error" (TObj [("error", v); ("shapeId", TStr (ex_target ex))]) d) acc)
               else response_examples req res xs r acc
           end
  end.
Definition action_examples (exs : list exampledef) (h : httpdef) : result unit (list tval) :=
  let req := capitalize (h_name h) +++ "Request" in
  let res := capitalize (h_name h) +++ "Response" in
  l <- request_examples req exs [] ;;
  l <- response_examples req res (h_exceptions h) exs l ;;
  Ok (map (fun kd => TObj (put "title" (TStr (fst kd)) (snd kd))) l).
(** export_smithy.go:299-301 and 349-364; [ns] is not empty (Export, 25-27) *)
Fixpoint write_examples (exs : list exampledef) (hs : list httpdef) (acc : list (string * shape)) : result unit (list (string * shape)) :=
  match hs with
  | [] => Ok acc
  | h :: r =>
      l <- action_examples exs h ;;
      let k := id_of (capitalize (h_name h)) in
      write_examples exs r
        (match get k acc, l with
         | Some s, _ :: _ => put k (add_trait "smithy.api#examples" (TArr l) s) acc
         | _, _ => acc
         end)
  end.
(** export_smithy.go:85-303 *)
Definition smithy_export (sch : schema) : result unit ast :=
  acc <- write_types (sc_types sch) [] ;;
  acc <- write_actions (sc_base sch) (sc_http sch) acc ;;
  let acc := fold_left (fun acc o => write_operation o acc) (sc_operations sch) acc in
  let acc := write_service sch acc in
  acc <- match sc_examples sch with [] => Ok acc | exs => write_examples exs (sc_http sch) acc end ;;
  Ok (mkAst (if sc_base sch =?s "" then [] else [("base", TStr (sc_base sch))]) acc).
End Export.
(** export_smithy.go:20-27: the namespace written *)
Definition export_namespace (sch : schema) (conf : string) : string :=
  let ns := if conf =?s "" then sc_namespace sch else conf in
  if ns =?s "" then "example" else ns.

(** ** Reading: ToSadl *)
(** What the code that is not in the repository, or the decoder of documents, makes of values:
    [sl_true v] is [Object.GetBool] on a value that is not a boolean;
    [sl_size z] is [sadl.GetInt64] (struct_helpers.go: only a float64 counts, anything else is 0) on a number that
    was read; [sl_status z] is [int32] of [Object.GetInt] on it, [sl_long z] is [Object.GetInt64], [sl_text z] its "%v";
    [sl_dec d] is [sadl.GetDecimal] on it, which is nil unless the decoder makes a [sadl.Decimal];
    [sl_data v] is the data [v] of an example after it was written and read. *)
Record slib := mkLib {
  sl_true : tval -> bool; sl_size : Z -> Z; sl_status : Z -> Z; sl_long : Z -> Z; sl_text : Z -> string;
  sl_dec : decimal -> option decimal; sl_data : value -> value }.

Section Import.
Context (L : slib).

Definition as_text (v : option tval) : string := match v with Some (TStr s) => s | _ => "" end.
Definition t_text (k : string) (t : traits) : string := as_text (get k t).
Definition t_bool (k : string) (t : traits) : bool :=
  match get k t with None => false | Some (TBool b) => b | Some v => sl_true L v end.
Definition t_map (k : string) (t : traits) : option traits := match get k t with Some (TObj l) => Some l | _ => None end.
Definition t_arr (k : string) (t : traits) : option (list tval) := match get k t with Some (TArr l) => Some l | _ => None end.
Definition t_status (k : string) (t : traits) : Z := match get k t with Some (TInt z) => sl_status L z | _ => 0%Z end.
Definition t_long (k : string) (t : traits) : Z := match get k t with Some (TInt z) => sl_long L z | _ => 0%Z end.
Definition m_size (k : string) (t : traits) : option Z :=
  match get k t with
  | Some (TInt z) => let n := sl_size L z in if (n =? 0)%Z then None else Some n
  | _ => None
  end.
Definition m_dec (k : string) (t : traits) : option decimal := match get k t with Some (TDec d) => sl_dec L d | _ => None end.

(** import_smithy.go:233-243 *)
Definition escape_comment (s : string) : string :=
  match split "010" s with
  | [_] => s
  | l => join nl (map trim_sp l)
  end.
(** import_smithy.go:919-927 *)
Definition with_anno (k v : string) (a : annos) : annos := if v =?s "" then a else put k v a.
(** [sadl.AsStringArray]: nothing at all if one of the items is not a string *)
Fixpoint all_texts (l : list tval) : option (list string) :=
  match l with
  | [] => Some []
  | TStr s :: r => option_map (cons s) (all_texts r)
  | _ => None
  end.
Definition string_array (v : tval) : list string :=
  match v with TArr l => match all_texts l with Some x => x | None => [] end | _ => [] end.
Definition as_obj (v : tval) : traits := match v with TObj l => l | _ => [] end.
(** import_smithy.go:433-504, one trait.  The panic at 489 is for a trait whose name is a shape of the document that
    does not define a trait. *)
Definition trait_anno (shapes : list (string * shape)) (a : annos) (kv : string * tval) : result unit annos :=
  let '(k, v) := kv in
  if k =?s "smithy.api#error" then Ok (with_anno "x_error" (as_text (Some v)) a)
  else if k =?s "smithy.api#httpError" then
    Ok (with_anno "x_httpError" (match v with TInt z => sl_text L z | TStr s => s | _ => "" end) a)
  else if str_mem k ["smithy.api#httpPayload"; "smithy.api#httpLabel"; "smithy.api#httpQuery"; "smithy.api#httpHeader";
                     "smithy.api#required"; "smithy.api#documentation"; "smithy.api#range"; "smithy.api#length"] then Ok a
  else if k =?s "smithy.api#tags" then Ok (with_anno "x_tags" (join "," (string_array v)) a)
  else if str_mem k ["smithy.api#readonly"; "smithy.api#idempotent"; "smithy.api#sensitive"; "smithy.api#box"; "smithy.api#http"] then Ok a
  else if k =?s "smithy.api#timestampFormat" then Ok (with_anno "x_timestampFormat" (as_text (Some v)) a)
  else if k =?s "smithy.api#enumValue" then Ok (with_anno "x_enumValue" (as_text (Some v)) a)
  else if k =?s "smithy.api#deprecated" then
    Ok (with_anno "x_deprecated_since" (t_text "since" (as_obj v))
          (with_anno "x_deprecated_message" (t_text "message" (as_obj v)) (with_anno "x_deprecated" "true" a)))
  else if k =?s "smithy.api#paginated" then
    let d := as_obj v in
    Ok (with_anno "x_paginated"
          ("inputToken=" +++ t_text "inputToken" d +++ ",outputToken=" +++ t_text "outputToken" d
           +++ ",pageSize=" +++ t_text "pageSize" d +++ ",items=" +++ t_text "items" d) a)
  else if str_mem k ["aws.protocols#restJson1"; "smithy.api#examples"] then Ok a
  else match get k shapes with
       | Some s => match t_map "smithy.api#trait" (sh_traits s) with Some _ => Ok a | None => Panic end
       | None => Ok a
       end.
Fixpoint traits_annos (shapes : list (string * shape)) (a : annos) (t : traits) : result unit annos :=
  match t with
  | [] => Ok a
  | kv :: r => a <- trait_anno shapes a kv ;; traits_annos shapes a r
  end.

Definition doc_of (t : traits) : string := escape_comment (t_text "smithy.api#documentation" t).
Definition spec_like (t pattern : string) (values : option (list string)) (mns mxs : option Z) (fields : list fielddef)
    (els : list enumelt) (mn mx : option decimal) (items keys : string) (vs : list variantdef) : typespec :=
  mkTS t pattern values mns mxs fields els mn mx items keys vs "" "" "".

Section Doc.
Context (shapes : list (string * shape)).

(** import_smithy.go:245-284 *)
Definition read_number (n : string) (s : shape) : result unit (list typedef) :=
  a <- traits_annos shapes [] (sh_traits s) ;;
  let k := sh_type s in
  let t := if k =?s "byte" then "Int8" else if k =?s "short" then "Int16" else if k =?s "integer" then "Int32"
           else if k =?s "long" then "Int64" else if k =?s "float" then "Float32" else if k =?s "double" then "Float64"
           else "Decimal" in
  let a := if k =?s "bigInteger" then with_anno "x_integer" "true" a else a in
  let '(mn, mx) := match t_map "smithy.api#range" (sh_traits s) with
                   | Some l => (m_dec "min" l, m_dec "max" l)
                   | None => (None, None)
                   end in
  Ok [mkTD (strip_namespace n) (doc_of (sh_traits s)) a (spec_like t "" None None None [] [] mn mx "" "" [])].
(** import_smithy.go:286-328.  [importEnum] (348-389) has no effect: [isEnum] and [couldBeEnum] stay false, so it
    returns false before it adds anything. *)
Definition read_sizes (t : traits) : option Z * option Z :=
  match t_map "smithy.api#length" t with
  | Some l => (m_size "min" l, m_size "max" l)
  | None => (None, None)
  end.
Definition read_string (n : string) (s : shape) : list typedef :=
  if strip_namespace n =?s "UUID" then []
  else
    let pat := t_text "smithy.api#pattern" (sh_traits s) in
    let '(mn, mx) := read_sizes (sh_traits s) in
    let vs := match t_arr "smithy.api#enum" (sh_traits s) with
              | Some (v :: l) => Some (map (fun x => t_text "value" (as_obj x)) (v :: l))
              | _ => None
              end in
    [mkTD (strip_namespace n) (doc_of (sh_traits s)) []
       (if pat =?s uuid_pattern then ts_of "UUID" else spec_like "String" pat vs mn mx [] [] None None "" "" [])].
(** import_smithy.go:391-400 and 422-431 *)
Definition read_plain (t n : string) (s : shape) : result unit (list typedef) :=
  a <- traits_annos shapes [] (sh_traits s) ;;
  Ok [mkTD (strip_namespace n) (doc_of (sh_traits s)) a (ts_of t)].
(** import_smithy.go:402-420 *)
Definition read_blob (n : string) (s : shape) : list typedef :=
  let '(mn, mx) := read_sizes (sh_traits s) in
  [mkTD (strip_namespace n) (doc_of (sh_traits s)) [] (spec_like "Bytes" "" None mn mx [] [] None None "" "" [])].
(** import_smithy.go:506-528 *)
Fixpoint read_elements (ms : list (string * member)) : result unit (list enumelt) :=
  match ms with
  | [] => Ok []
  | (k, m) :: r =>
      a <- traits_annos shapes [] (mb_traits m) ;;
      l <- read_elements r ;;
      Ok (mkElt k (doc_of (mb_traits m)) a :: l)
  end.
Definition read_enum (n : string) (s : shape) : result unit (list typedef) :=
  a <- traits_annos shapes [] (sh_traits s) ;;
  l <- read_elements (sh_members s) ;;
  Ok [mkTD (strip_namespace n) (doc_of (sh_traits s)) a (spec_like "Enum" "" None None None [] l None None "" "" [])].
(** import_smithy.go:530-563 *)
Fixpoint read_variants (ms : list (string * member)) : result unit (list variantdef) :=
  match ms with
  | [] => Ok []
  | (k, m) :: r =>
      a <- traits_annos shapes [] (mb_traits m) ;;
      l <- read_variants r ;;
      Ok (mkVariant k (doc_of (mb_traits m)) a (ts_of (shape_to_type (mb_target m))) :: l)
  end.
Definition read_union (n : string) (s : shape) : result unit (list typedef) :=
  a <- traits_annos shapes [] (sh_traits s) ;;
  l <- read_variants (sh_members s) ;;
  Ok [mkTD (strip_namespace n) (doc_of (sh_traits s)) a (spec_like "Union" "" None None None [] [] None None "" "" l)].
(** import_smithy.go:565-606; 567-581 is not reached, such shapes are left out at 195-197 *)
Fixpoint read_fields (ms : list (string * member)) : result unit (list fielddef) :=
  match ms with
  | [] => Ok []
  | (k, m) :: r =>
      a <- traits_annos shapes [] (mb_traits m) ;;
      l <- read_fields r ;;
      Ok (mkField k (doc_of (mb_traits m)) a (t_bool "smithy.api#required" (mb_traits m)) VNil
            (ts_of (shape_to_type (mb_target m))) :: l)
  end.
Definition read_struct (n : string) (s : shape) : result unit (list typedef) :=
  a <- traits_annos shapes [] (sh_traits s) ;;
  l <- read_fields (sh_members s) ;;
  Ok [mkTD (strip_namespace n) (doc_of (sh_traits s)) a (spec_like "Struct" "" None None None l [] None None "" "" [])].
(** import_smithy.go:608-648 *)
Definition read_bound (k : string) (t : traits) : option Z := let n := t_long k t in if (n =? 0)%Z then None else Some n.
Definition read_list (n : string) (s : shape) (unique : bool) : result unit (list typedef) :=
  match sh_member s with
  | None => Panic
  | Some m =>
      Ok [mkTD (strip_namespace n) (doc_of (sh_traits s)) (if unique then [("x_unique", "true")] else [])
            (spec_like "Array" "" None (read_bound "smithy.api#min" (sh_traits s)) (read_bound "smithy.api#max" (sh_traits s))
               [] [] None None (shape_to_type (mb_target m)) "" [])]
  end.
Definition read_map (n : string) (s : shape) : result unit (list typedef) :=
  match sh_key s, sh_value s with
  | Some k, Some v =>
      Ok [mkTD (strip_namespace n) (doc_of (sh_traits s)) []
            (spec_like "Map" "" None (read_bound "smithy.api#min" (sh_traits s)) (read_bound "smithy.api#max" (sh_traits s))
               [] [] None None (shape_to_type (mb_target v)) (shape_to_type (mb_target k)) [])]
  | _, _ => Panic
  end.

(** import_smithy.go:729-754; the suffixes as in a process that writes nothing *)
Fixpoint read_examples (n : string) (l : list tval) : list exampledef :=
  match l with
  | [] => []
  | TObj d :: r =>
      let title := t_text "title" d in
      (match get "input" d with
       | Some v => [mkEx (capitalize n +++ "Request") title (match v with TVal x => sl_data L x | _ => VNil end)
                      (t_text "documentation" d) []]
       | None => []
       end) ++
      (match get "output" d with
       | Some v => [mkEx (capitalize n +++ "Response") title (match v with TVal x => sl_data L x | _ => VNil end) "" []]
       | None => []
       end) ++ read_examples n r
  | _ :: r => read_examples n r
  end.
Definition examples_of (n : string) (s : shape) : list exampledef :=
  match t_arr "smithy.api#examples" (sh_traits s) with Some l => read_examples n l | None => [] end.
(** import_smithy.go:757-797 *)
Definition read_operation (n : string) (s : shape) : result unit opdef :=
  a <- traits_annos shapes [] (sh_traits s) ;;
  ins <- match sh_input s with
         | None => Ok []
         | Some t =>
             match get t shapes with
             | None => Panic
             | Some i => Ok (map (fun km : string * member =>
                 mkField (fst km) "" [] (t_bool "smithy.api#required" (mb_traits (snd km))) VNil
                   (ts_of (shape_to_type (mb_target (snd km))))) (sh_members i))
             end
         end ;;
  outs <- match sh_output s with
          | None => Ok []
          | Some t =>
              match get t shapes with
              | None => Panic
              | Some o => Ok (map (fun km : string * member =>
                  mkOut (fst km) "" [] (ts_of (shape_to_type (mb_target (snd km))))) (sh_members o))
              end
          end ;;
  Ok (mkOp (uncapitalize (strip_namespace n)) (doc_of (sh_traits s)) a ins outs (map shape_to_type (sh_errors s))).
(** import_smithy.go:808-857 *)
Definition read_param (km : string * member) : paramspec :=
  let '(k, m) := km in
  let t := mb_traits m in
  mkParam (t_text "smithy.api#httpHeader" t) (t_text "smithy.api#httpQuery" t) (t_bool "smithy.api#httpLabel" t)
    (mkField k "" [] (t_bool "smithy.api#required" t) VNil (ts_of (shape_to_type (mb_target m)))).
Definition body_param (t : string) : paramspec := mkParam "" "" false (mkField "body" "" [] false VNil (ts_of t)).
(** import_smithy.go:815-824 and 869-876: the last member that is the payload, and whether a member that is not
    the payload is a label or else (it seems) in the query *)
Definition is_payload_member (m : member) : bool := t_bool "smithy.api#httpPayload" (mb_traits m).
Definition is_label (m : member) : bool := negb (is_payload_member m) && t_bool "smithy.api#httpLabel" (mb_traits m).
Definition is_in_query (m : member) : bool :=
  negb (is_payload_member m) && negb (t_bool "smithy.api#httpLabel" (mb_traits m)) && t_bool "smithy.api#httpQuery" (mb_traits m).
Definition payload_member (ms : list (string * member)) : string :=
  fold_left (fun acc km => if is_payload_member (snd km) then fst km else acc) ms "".
(** the names of the parameters in the query, and the query string made of them (833-841) *)
Definition query_names (ms : list (string * member)) : list string :=
  map fst (filter (fun km => negb (t_text "smithy.api#httpQuery" (mb_traits (snd km)) =?s "")) ms).
Definition query_string (l : list string) : string :=
  match l with [] => "" | _ => "?" +++ join "&" (map (fun k => k +++ "={" +++ k +++ "}") l) end.
Definition read_inputs (s : shape) : list paramspec * string :=
  match sh_input s with
  | None => ([], "")
  | Some t =>
      if t =?s "smithy.api#Unit" then ([], "")
      else match get t shapes with
           | None => ([], "")
           | Some i =>
               if negb (payload_member (sh_members i) =?s "")
                  || existsb (fun km => is_label (snd km) || is_in_query (snd km)) (sh_members i)
               then (map read_param (sh_members i), query_string (query_names (sh_members i)))
               else ([body_param (shape_to_type t)], "")
           end
  end.
(** import_smithy.go:859-896; the type of the body goes through the table twice (727 and 881) *)
Definition read_outputs (s : shape) : result unit (list paramspec) :=
  match sh_output s with
  | None => Ok []
  | Some t =>
      if t =?s "smithy.api#Unit" then Ok []
      else match get t shapes with
           | None => Panic
           | Some o =>
               if negb (payload_member (sh_members o) =?s "") || existsb (fun km => is_label (snd km)) (sh_members o)
               then Ok (map read_param (sh_members o))
               else Ok [body_param (shape_to_type (shape_to_type t))]
           end
  end.
(** import_smithy.go:897-912 *)
Fixpoint read_errors (l : list string) : result unit (list exceptionspec) :=
  match l with
  | [] => Ok []
  | t :: r =>
      match get t shapes with
      | None => Panic
      | Some e =>
          xs <- read_errors r ;;
          Ok (mkExc (shape_to_type t) (t_status "smithy.api#httpError" (sh_traits e)) (doc_of (sh_traits e)) [] :: xs)
      end
  end.
(** import_smithy.go:798-916 *)
Definition read_http (n : string) (s : shape) (d : traits) : result unit httpdef :=
  a <- traits_annos shapes [] (sh_traits s) ;;
  let code := t_status "code" d in
  let '(ins, qs) := read_inputs s in
  outs <- read_outputs s ;;
  xs <- read_errors (sh_errors s) ;;
  Ok (mkHttp (uncapitalize (strip_namespace n)) "" (doc_of (sh_traits s)) a (t_text "method" d) (t_text "uri" d +++ qs) ins
        (Some (mkExp outs (if (code =? 0)%Z then 200%Z else code) "" [])) xs).

(** What a shape adds to the schema. *)
Record part := mkPart { p_types : list typedef; p_https : list httpdef; p_ops : list opdef; p_exs : list exampledef }.
Definition types_part (r : result unit (list typedef)) : result unit part := l <- r ;; Ok (mkPart l [] [] []).
(** import_smithy.go:709-917 *)
Definition read_op_shape (n : string) (s : shape) : result unit part :=
  let d := match t_map "smithy.api#http" (sh_traits s) with Some l => l | None => [] end in
  if t_text "method" d =?s "" then o <- read_operation n s ;; Ok (mkPart [] [] [o] (examples_of n s))
  else h <- read_http n s d ;; Ok (mkPart [] [h] [] (examples_of n s)).
(** import_smithy.go:194-231 *)
Definition read_shape (n : string) (s : shape) : result unit part :=
  let k := sh_type s in
  if str_mem k ["byte"; "short"; "integer"; "long"; "float"; "double"; "bigInteger"; "bigDecimal"] then types_part (read_number n s)
  else if k =?s "string" then types_part (Ok (read_string n s))
  else if k =?s "timestamp" then types_part (read_plain "Timestamp" n s)
  else if k =?s "boolean" then types_part (read_plain "Boolean" n s)
  else if k =?s "list" then types_part (read_list n s false)
  else if k =?s "set" then types_part (read_list n s true)
  else if k =?s "map" then types_part (read_map n s)
  else if k =?s "structure" then types_part (read_struct n s)
  else if k =?s "union" then types_part (read_union n s)
  else if k =?s "blob" then types_part (Ok (read_blob n s))
  else if k =?s "enum" then types_part (read_enum n s)
  else if k =?s "service" then Ok (mkPart [] [] [] [])
  else if k =?s "operation" then read_op_shape n s
  else if k =?s "resource" then Ok (mkPart [] [] [] [])
  else Panic.
(** import_smithy.go:170-177: the shapes that are inputs or outputs of operations *)
Definition io_params : list string :=
  flat_map (fun ns : string * shape =>
    if sh_type (snd ns) =?s "operation" then
      (match sh_input (snd ns) with Some t => [t] | None => [] end) ++ match sh_output (snd ns) with Some t => [t] | None => [] end
    else []) shapes.
(** import_smithy.go:185-190 and 195-197 *)
Fixpoint read_shapes (service : string) (l : list (string * shape)) : result unit part :=
  match l with
  | [] => Ok (mkPart [] [] [] [])
  | (n, s) :: r =>
      p <- (if (negb (sh_type s =?s "service") || (n =?s service)) && negb (str_mem n io_params) then read_shape n s
            else Ok (mkPart [] [] [] [])) ;;
      q <- read_shapes service r ;;
      Ok (mkPart (p_types p ++ p_types q) (p_https p ++ p_https q) (p_ops p ++ p_ops q) (p_exs p ++ p_exs q))
  end.
(** import_smithy.go:154-169: the name and the version of the service *)
Fixpoint find_service (want : string) (l : list (string * shape)) (name version : string) : result unit (string * string) :=
  match l with
  | [] => Ok (name, version)
  | (n, s) :: r =>
      if sh_type s =?s "service" then
        if negb (want =?s "") then
          if n =?s want then find_service want r n (sh_version s) else find_service want r name version
        else if negb (name =?s "") then Err tt else find_service want r n (sh_version s)
      else find_service want r name version
  end.
End Doc.

(** import_smithy.go:31-45 and 101-192: [name], [nspace], [service] and [base] are options.  The text of
    [sadl.Version] in the schema is not modelled. *)
Definition meta_annos (meta : traits) : annos :=
  fold_left (fun a kv => if fst kv =?s "name" then a
                         else put (if fst kv =?s "base" then "base" else "x_" +++ fst kv) (as_text (Some (snd kv))) a) meta [].
Definition smithy_schema (name nspace service base : string) (a : ast) : result unit schema :=
  '(sname, sversion) <- find_service service (as_shapes a) "" "" ;;
  p <- read_shapes (as_shapes a) sname (as_shapes a) ;;
  Ok (mkSchema "" (if name =?s "" then strip_namespace sname else name)
        (if nspace =?s "example" then "" else nspace) sversion ""
        (p_types p) (p_exs p) (p_ops p) (p_https p) base (meta_annos (as_meta a))).
Definition smithy_import (name nspace service base : string) (a : ast) : result unit model :=
  sch <- smithy_schema name nspace service base a ;;
  match new_model sch with Ok m => Ok m | _ => Err tt end.
End Import.
