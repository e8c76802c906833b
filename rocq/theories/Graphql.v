(** graphql/export_graphql.go: the GraphQL document made from a model. *)
From Verif Require Import GoStr Outcome Value Schema Model Generator.

(** The configuration: the custom scalar named for a base type, "" if none
    (data.GetString("custom-scalars", name), export_graphql.go:110). *)
Definition scalar_conf := string -> string.

(** A written type: a name, or a list of non-null names (export_graphql.go:147). *)
Inductive gref := RName (n : string) | RList (n : string).
Definition ref_text (r : gref) : string :=
  match r with RName n => n | RList n => "[" +++ n +++ "!]" end.
(** A definition of the document. *)
Inductive gdef :=
| DEnum (n : string) (symbols : list string)
| DType (n : string) (fields : list (string * string * gref * bool))   (** name, comment, type, required *)
| DUnion (n : string) (members : list string).

(** export_graphql.go:109-116: the writer remembers the custom scalars used; a Go map, here a list without
    duplicates. *)
Definition custom_scalar (conf : scalar_conf) (used : list string) (name dflt : string) : string * list string :=
  let t := conf name in
  if negb (t =?s "") then (t, if str_mem t used then used else used ++ [t]) else (dflt, used).
(** export_graphql.go:118-135 *)
Definition scalar_type (conf : scalar_conf) (used : list string) (name : string) : string * list string :=
  if name =?s "Bool" then ("Boolean", used)
  else if name =?s "String" then ("String", used)
  else if str_mem name ["UUID"; "Timestamp"] then custom_scalar conf used name "String"
  else if str_mem name ["Int32"; "Int16"; "Int8"] then ("Int", used)
  else if str_mem name ["Float64"; "Float32"] then ("Float", used)
  else if str_mem name ["Int64"; "Decimal"] then custom_scalar conf used name "Float"
  else ("", used).
(** export_graphql.go:31-35: w.arrays: a later definition of a name replaces an earlier one *)
Definition find_array (m : model) (n : string) : option typedef :=
  find (fun td => (td_name td =?s n) && (ts_type (td_spec td) =?s "Array")) (rev (sc_types (m_schema m))).
(** export_graphql.go:137-158 *)
Definition type_ref (conf : scalar_conf) (m : model) (used : list string) (ts : typespec) : gref * list string :=
  let ts := match find_array m (ts_type ts) with Some td => td_spec td | None => ts end in
  let '(s, used) := scalar_type conf used (ts_type ts) in
  if negb (s =?s "") then (RName s, used)
  else if ts_type ts =?s "Array" then (RList (ts_items ts), used)
  else match find_type m (ts_type ts) with
       | Some td =>
           let '(s, used) := scalar_type conf used (ts_type (td_spec td)) in
           if negb (s =?s "") then (RName s, used) else (RName (ts_type ts), used)
       | None => (RName (ts_type ts), used)
       end.
(** export_graphql.go:91-107 *)
Fixpoint struct_fields (conf : scalar_conf) (m : model) (used : list string) (fs : list fielddef)
  : list (string * string * gref * bool) * list string :=
  match fs with
  | [] => ([], used)
  | f :: r =>
      let '(t, used) := type_ref conf m used (fd_spec f) in
      let '(l, used) := struct_fields conf m used r in
      ((fd_name f, fd_comment f, t, fd_required f) :: l, used)
  end.
(** export_graphql.go:36-54; the kinds without an entry panic *)
Fixpoint gql_defs (conf : scalar_conf) (m : model) (used : list string) (tds : list typedef)
  : result unit (list gdef * list string) :=
  match tds with
  | [] => Ok ([], used)
  | td :: r =>
      let t := ts_type (td_spec td) in
      if t =?s "Enum" then
        '(l, used) <- gql_defs conf m used r ;;
        Ok (DEnum (td_name td) (map ee_symbol (ts_elements (td_spec td))) :: l, used)
      else if t =?s "Struct" then
        let '(fs, used) := struct_fields conf m used (ts_fields (td_spec td)) in
        '(l, used) <- gql_defs conf m used r ;;
        Ok (DType (td_name td) fs :: l, used)
      else if t =?s "Union" then
        '(l, used) <- gql_defs conf m used r ;;
        Ok (DUnion (td_name td) (map (fun v => ts_type (uv_spec v)) (ts_variants (td_spec td))) :: l, used)
      else if str_mem t ["String"; "Bool"; "Int8"; "Int16"; "Int32"; "Int64"; "Float32"; "Float64"; "Decimal"; "Array"] then
        gql_defs conf m used r
      else Panic
  end.
(** export_graphql.go:21-59: the definitions and the custom scalars declared at the end (in any order) *)
Definition gql_export (conf : scalar_conf) (m : model) : result unit (list gdef * list string) :=
  gql_defs conf m [] (sc_types (m_schema m)).

(** The text, export_graphql.go:82-107, 160-173 and 55-57 *)
Definition gql_def_text (d : gdef) : string :=
  match d with
  | DEnum n l => "enum " +++ n +++ " {" +++ nl +++ String.concat "" (map (fun s => "  " +++ s +++ nl) l) +++ "}" +++ nl +++ nl
  | DType n l =>
      "type " +++ n +++ " {" +++ nl
      +++ String.concat "" (map (fun x : string * string * gref * bool => let '(f, c, t, r) := x in
            (if negb (c =?s "") then "  # " +++ c +++ nl else "") +++
            "  " +++ f +++ ": " +++ ref_text t +++ (if r then "!" else "") +++ nl) l)
      +++ "}" +++ nl +++ nl
  | DUnion n l =>
      "union " +++ n +++ " =" +++ nl
      +++ match l with
          | [] => ""
          | v :: r => "    " +++ v +++ nl +++ String.concat "" (map (fun v => "  | " +++ v +++ nl) r)
          end
      +++ nl
  end.
Definition gql_text (ds : list gdef) (scalars : list string) : string :=
  String.concat "" (map gql_def_text ds) +++ String.concat "" (map (fun s => "scalar " +++ s +++ nl) scalars).
