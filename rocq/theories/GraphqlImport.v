(** graphql/import_graphql.go: a GraphQL document read as a model.  The document is what the package
    github.com/graphql-go/graphql gives; that package is not in the repository. *)
From Verif Require Import GoStr Outcome Value Schema Model Graphql.

(** The types of fields: ast.Named, ast.List, ast.NonNull. *)
Inductive gtype := GNamed (n : string) | GList (t : gtype) | GNonNull (t : gtype).
(** ast.FieldDefinition: name, description (None for a nil StringValue), type *)
Record gfield := mkGField { gf_name : string; gf_desc : option string; gf_type : gtype }.
(** ast.Definition; the last one stands for every other kind (directives, extensions, queries, fragments). *)
Inductive gdefn :=
| GObject (n : string) (desc : option string) (fields : list gfield)
| GSchemaDef (operation_types : list string)
| GEnum (n : string) (desc : option string) (values : list (string * option string))
| GUnion (n : string) (desc : option string) (members : list string)
| GInterface (n : string)
| GInput (n : string)
| GScalar (n : string)
| GOther (kind : string).

(** import_graphql.go:108-117; the last case is panic("FixMe") *)
Definition type_name (t : gtype) : result unit string :=
  match t with GNamed n => Ok n | GList _ => Ok "Array" | GNonNull _ => Panic end.
(** import_graphql.go:119-133 *)
Definition convert_type_name (n : string) : string :=
  if n =?s "Int" then "Int32" else if n =?s "Float" then "Float64" else if n =?s "Boolean" then "Bool" else n.
(** import_graphql.go:135-140 *)
Definition string_value (sv : option string) : string := match sv with None => "" | Some s => s end.
(** import_graphql.go:142-145: strings.Replace(descr, "\n", " ", -1) *)
Fixpoint comment_value (s : string) : string :=
  match s with
  | EmptyString => ""
  | String c r => String (if Ascii.eqb c "010" then " " else c)%char (comment_value r)
  end.

Definition plain_ts (t items : string) : typespec := mkTS t "" None None None [] [] None None items "" [] "" "" "".
(** import_graphql.go:205-241: whether the field is required, its type and items.  The panics are those of lines
    218, 221, 236 and of typeName. *)
Definition field_type (t : gtype) : result unit (bool * string * string) :=
  match t with
  | GNamed n => Ok (false, convert_type_name n, "")
  | GList (GNamed n) => Ok (false, "Array", convert_type_name n)
  | GList (GNonNull (GNamed n)) => Ok (false, "Array", convert_type_name n)
  | GList _ => Panic
  | GNonNull (GNamed n) => Ok (true, convert_type_name n, "")
  | GNonNull (GList (GNamed n)) => Ok (true, "Array", convert_type_name n)
  | GNonNull (GList (GNonNull t')) => n <- type_name t' ;; Ok (true, "Array", convert_type_name n)
  | GNonNull (GList _) => Panic
  | GNonNull t' => n <- type_name t' ;; Ok (true, convert_type_name n, "")
  end.
(** import_graphql.go:199-243 *)
Fixpoint gql_fields (fs : list gfield) : result unit (list fielddef) :=
  match fs with
  | [] => Ok []
  | f :: r =>
      '(req, t, i) <- field_type (gf_type f) ;;
      l <- gql_fields r ;;
      Ok (mkField (gf_name f) (comment_value (string_value (gf_desc f))) [] req VNil (plain_ts t i) :: l)
  end.
(** import_graphql.go:191-246 *)
Definition gql_struct (n : string) (desc : option string) (fs : list gfield) : result unit typedef :=
  l <- gql_fields fs ;;
  Ok (mkTD n (comment_value (string_value desc)) [] (mkTS "Struct" "" None None None l [] None None "" "" [] "" "" "")).
(** import_graphql.go:147-168; a nil description leaves the comment empty *)
Definition gql_enum (n : string) (desc : option string) (vs : list (string * option string)) : typedef :=
  mkTD n (comment_value (string_value desc)) []
    (mkTS "Enum" "" None None None [] (map (fun v => mkElt (fst v) (comment_value (string_value (snd v))) []) vs) None None "" "" [] "" "" "").
(** import_graphql.go:170-189 *)
Definition gql_union (n : string) (desc : option string) (ms : list string) : typedef :=
  mkTD n (comment_value (string_value desc)) []
    (mkTS "Union" "" None None None [] [] None None "" "" (map (fun t => mkVariant t "" [] (ts_of t)) ms) "" "" "").
(** import_graphql.go:62-68 *)
Definition id_type : typedef := mkTD "ID" "The GraphQL 'ID' type" [] (ts_of "String").
(** import_graphql.go:70-104; [ignore] is a set *)
Fixpoint gql_types (ignore : list string) (doc : list gdefn) : result unit (list typedef) :=
  match doc with
  | [] => Ok []
  | d :: r =>
      match d with
      | GObject n desc fs =>
          if str_mem n ignore then gql_types ignore r
          else td <- gql_struct n desc fs ;; l <- gql_types ignore r ;; Ok (td :: l)
      | GSchemaDef ops => gql_types (ops ++ ignore) r
      | GEnum n desc vs => l <- gql_types ignore r ;; Ok (gql_enum n desc vs :: l)
      | GUnion n desc ms => l <- gql_types ignore r ;; Ok (gql_union n desc ms :: l)
      | GInterface _ | GInput _ => gql_types ignore r
      | GScalar n => if str_mem n ["Timestamp"; "UUID"] then gql_types ignore r else Err tt
      | GOther _ => Err tt
      end
  end.
(** import_graphql.go:50-61, 105; name and namespace of the configuration *)
Definition gql_schema (name ns : string) (doc : list gdefn) : result unit schema :=
  l <- gql_types [] doc ;;
  Ok (mkSchema "" (if name =?s "" then "generatedFromGraphQL" else name) ns "" "" (id_type :: l) [] [] [] "" []).
(** import_graphql.go:21-48: [read] is ioutil.ReadFile, [parse] the parser of the package; error texts are left out *)
Definition gql_import (read : string -> option string) (parse : string -> option (list gdefn)) (name ns : string)
    (paths : list string) : result unit model :=
  match paths with
  | [path] =>
      match read path with
      | None => Err tt
      | Some src =>
          match parse src with
          | None => Err tt
          | Some doc =>
              sch <- gql_schema name ns doc ;;
              match new_model sch with Ok m => Ok m | Panic => Panic | OutOfFuel => OutOfFuel | Err _ => Err tt end
          end
      end
  | _ => Err tt
  end.

(** What the parser gives for the text of written definitions (Graphql.v, [gql_text]).  Assumed of the package: lines
    that start with a hash are comments, so nothing has a description. *)
Definition ref_type (r : gref) : gtype := match r with RName n => GNamed n | RList n => GList (GNonNull (GNamed n)) end.
Definition defn_of (d : gdef) : gdefn :=
  match d with
  | DEnum n l => GEnum n None (map (fun s => (s, None)) l)
  | DType n l => GObject n None (map (fun x : string * string * gref * bool =>
      let '(f, _, t, r) := x in mkGField f None (if r then GNonNull (ref_type t) else ref_type t)) l)
  | DUnion n l => GUnion n None l
  end.
Definition gql_doc (ds : list gdef) (scalars : list string) : list gdefn := map defn_of ds ++ map GScalar scalars.
