(** Specifications for the generators: query strings, paths, imports. *)
From Verif Require Import GoStr Schema SpecMisc SpecPV Graphql.

(** ** Query parameters *)
(** [k=v] with the key up to the first equals sign *)
Definition has_value (item v : string) : Prop := exists k, no_char "=" k /\ item = k +++ "=" +++ v.
(** [l'] is [l] without the elements that satisfy [P], in order *)
Inductive without {A} (P : A -> Prop) : list A -> list A -> Prop :=
| wo_nil : without P [] []
| wo_drop x l l' : P x -> without P l l' -> without P (x :: l) l'
| wo_keep x l l' : ~ P x -> without P l l' -> without P (x :: l) (x :: l').
(** a request target: a path and, after a question mark, items separated by ampersands *)
Inductive target : string -> string -> list string -> Prop :=
| tg_plain p : no_char "?" p -> target p p []
| tg_query p i l : no_char "?" p -> (forall x, In x (i :: l) -> no_char "&" x) ->
    target (p +++ "?" +++ join "&" (i :: l)) p (i :: l).

(** ** Paths *)
(** a component of a path, possibly [..] *)
Definition component (c : string) : Prop := c <> "" /\ c <> "." /\ no_char "/" c.
Definition plain_component (c : string) : Prop := component c /\ c <> "..".
(** [p] is the directory or file reached by [l] from the root or the current directory *)
Definition path_is (p : string) (rooted : bool) (l : list string) : Prop :=
  Forall component l
  /\ (if rooted then p = "/" +++ join "/" l
      else (l = [] /\ p = ".") \/ (l <> [] /\ p = join "/" l)).
(** [p] lies below [dir], reached by the components [l] *)
Definition below (dir p : string) (l : list string) : Prop :=
  Forall plain_component l /\ exists r d, path_is dir r d /\ path_is p r (d ++ l).

(** ** Import lists *)
Inductive ascending : list string -> Prop :=
| asc_nil : ascending []
| asc_one s : ascending [s]
| asc_cons s t l : (s ?= t)%string = Lt -> ascending (t :: l) -> ascending (s :: t :: l).

(** ** Go *)
(** the names of Go's own types that are written like type names of a model *)
Definition go_predeclared : list string := ["int8"; "int16"; "int32"; "int64"; "float32"; "float64"; "bool"; "string"].

(** ** GraphQL *)
(** (uses only the data types of Graphql.v: the definitions of a document) *)
Definition gql_builtin : list string := ["Int"; "Float"; "String"; "Boolean"; "ID"].
Inductive gql_mentions : gdef -> string -> Prop :=
| gm_name n fs f c s r : In (f, c, RName s, r) fs -> gql_mentions (DType n fs) s
| gm_list n fs f c s r : In (f, c, RList s, r) fs -> gql_mentions (DType n fs) s
| gm_member n l s : In s l -> gql_mentions (DUnion n l) s.
Definition gql_name (d : gdef) : string := match d with DEnum n _ | DType n _ | DUnion n _ => n end.
(** the base types with a GraphQL scalar *)
Definition gql_scalars : list string :=
  ["Bool"; "String"; "UUID"; "Timestamp"; "Int8"; "Int16"; "Int32"; "Int64"; "Float32"; "Float64"; "Decimal"].
(** kinds of types that are defined in the document *)
Definition gql_kinds : list string := ["Enum"; "Struct"; "Union"].
Definition of_kind (sch : schema) (kinds : list string) (n : string) : Prop :=
  exists td, In td (sc_types sch) /\ td_name td = n /\ In (ts_type (td_spec td)) kinds.
(** a definition and the type it stands for *)
Inductive gql_stands : typedef -> gdef -> Prop :=
| gs_enum td : ts_type (td_spec td) = "Enum" ->
    gql_stands td (DEnum (td_name td) (map ee_symbol (ts_elements (td_spec td))))
| gs_type td fs : ts_type (td_spec td) = "Struct" ->
    Forall2 (fun f x => exists r, x = (fd_name f, fd_comment f, r, fd_required f)) (ts_fields (td_spec td)) fs ->
    gql_stands td (DType (td_name td) fs)
| gs_union td : ts_type (td_spec td) = "Union" ->
    gql_stands td (DUnion (td_name td) (map (fun v => ts_type (uv_spec v)) (ts_variants (td_spec td)))).
(** the type of a field has a GraphQL counterpart; arrays of types defined in the document *)
Definition gql_field_known (sch : schema) (ts : typespec) : Prop :=
  In (ts_type ts) gql_scalars
  \/ (ts_type ts = "Array" /\ of_kind sch gql_kinds (ts_items ts))
  \/ of_kind sch (gql_kinds ++ gql_scalars ++ ["Array"]) (ts_type ts).
Definition gql_arrays_known (sch : schema) : Prop :=
  forall td, In td (sc_types sch) -> ts_type (td_spec td) = "Array" -> of_kind sch gql_kinds (ts_items (td_spec td)).
