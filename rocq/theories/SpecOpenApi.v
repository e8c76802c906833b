(** Specifications for OpenAPI documents; they use the records of OpenApi.v, none of its functions. *)
From Verif Require Import GoStr Value Schema SpecModel SpecPV OpenApi.

(** ** References *)
Inductive has_ref : oas -> string -> Prop :=
| hr_here s : o_ref s <> "" -> has_ref s (o_ref s)
| hr_items s i r : o_items s = Some i -> has_ref i r -> has_ref s r
| hr_addl s i r : o_addl s = Some i -> has_ref i r -> has_ref s r
| hr_prop s ps n p r : o_props s = Some ps -> In (n, p) ps -> has_ref p r -> has_ref s r
| hr_one s i r : In i (o_oneof s) -> has_ref i r -> has_ref s r.
Inductive op_schema_in : ooperation -> oas -> Prop :=
| osi_param op p : In p (oo_params op) -> op_schema_in op (op_schema p)
| osi_body op d s : oo_body op = Some (d, s) -> op_schema_in op s
| osi_resp op k r s : In (k, r) (oo_responses op) -> or_body r = Some s -> op_schema_in op s
| osi_head op k r h d s : In (k, r) (oo_responses op) -> In (h, (d, s)) (or_headers r) -> op_schema_in op s.
Inductive doc_schema : oasdoc -> oas -> Prop :=
| ds_comp doc n s : In (n, s) (od_schemas doc) -> doc_schema doc s
| ds_path doc p pi mth op s : In (p, pi) (od_paths doc) -> In (mth, op) pi -> op_schema_in op s -> doc_schema doc s.
Definition doc_ref (doc : oasdoc) (r : string) : Prop := exists s, doc_schema doc s /\ has_ref s r.
Definition resolves (doc : oasdoc) (r : string) : Prop :=
  exists n s, r = "#/components/schemas/" +++ n /\ In (n, s) (od_schemas doc).

(** ** Types that can be written without a dangling reference *)
Definition declared (sch : schema) (n : string) : Prop := exists td, In td (sc_types sch) /\ td_name td = n.
Definition oas_scalars : list string :=
  ["Bool"; "Int8"; "Int16"; "Int32"; "Int64"; "Float32"; "Float64"; "Decimal"; "Bytes"; "String"; "Timestamp"; "UnitValue"; "UUID"].
(** what may follow Array< and the value type of a Map *)
Definition oas_item_ok (sch : schema) (kinds : list string) (n : string) : Prop :=
  In n oas_scalars
  \/ exists td, In td (sc_types sch) /\ td_name td = n
       /\ (In (ts_type (td_spec td)) (oas_scalars ++ kinds) \/ declared sch (ts_type (td_spec td))).
Inductive oas_field_ok (sch : schema) : typespec -> Prop :=
| ofo_scalar ts : In (ts_type ts) oas_scalars -> oas_field_ok sch ts
| ofo_declared ts : declared sch (ts_type ts) -> oas_field_ok sch ts
| ofo_array ts : ts_type ts = "Array" -> oas_item_ok sch ["Array"; "Map"; "Struct"; "Enum"] (ts_items ts) -> oas_field_ok sch ts
| ofo_map ts : ts_type ts = "Map" -> oas_item_ok sch ["Array"; "Map"; "Struct"] (ts_items ts) -> oas_field_ok sch ts
| ofo_struct ts : ts_type ts = "Struct" -> (forall f, In f (ts_fields ts) -> oas_field_ok sch (fd_spec f)) -> oas_field_ok sch ts.
Definition oas_def_ok (sch : schema) (td : typedef) : Prop :=
  let ts := td_spec td in
  (ts_type ts = "Struct" -> forall f, In f (ts_fields ts) -> oas_field_ok sch (fd_spec f))
  /\ (ts_type ts = "Array" -> oas_item_ok sch ["Array"; "Map"; "Struct"; "Enum"] (ts_items ts))
  /\ (ts_type ts = "Map" -> oas_item_ok sch ["Array"; "Map"; "Struct"] (ts_items ts))
  /\ (ts_type ts = "Union" -> forall v, In v (ts_variants ts) -> declared sch (ts_type (uv_spec v))).
Definition oas_http_ok (sch : schema) (h : httpdef) : Prop :=
  (forall p, In p (h_inputs h) -> oas_field_ok sch (fd_spec (ps_field p)))
  /\ (forall e p, h_expected h = Some e -> In p (xp_outputs e) -> oas_field_ok sch (fd_spec (ps_field p)))
  /\ (forall x, In x (h_exceptions h) -> declared sch (xc_type x)).

(** ** Operations *)
Definition doc_op (doc : oasdoc) (p mth : string) (op : ooperation) : Prop :=
  exists pi, In (p, pi) (od_paths doc) /\ In (mth, op) pi.
(** an input that is not the body, and the parameter that stands for it *)
Inductive param_stands : paramspec -> oparam -> Prop :=
| pst_path p s : ps_path p = true ->
    param_stands p (mkOParam "path" (fd_name (ps_field p)) true (fd_comment (ps_field p)) s)
| pst_query p s : ps_path p = false -> ps_query p <> "" ->
    param_stands p (mkOParam "query" (ps_query p) (fd_required (ps_field p)) (fd_comment (ps_field p)) s)
| pst_header p s : ps_path p = false -> ps_query p = "" -> ps_header p <> "" ->
    param_stands p (mkOParam "header" (ps_header p) (fd_required (ps_field p)) (fd_comment (ps_field p)) s).
Definition is_body (p : paramspec) : Prop := ps_path p = false /\ ps_query p = "" /\ ps_header p = "".

(** ** Base types and what they come back as *)
Definition comes_back_as (t : string) : string :=
  match t with
  | "Int8" | "Int16" => "Int32"
  | "Float32" | "Float64" => "Decimal"
  | "Bytes" | "UnitValue" | "UUID" => "String"
  | _ => t
  end%string.

(** ** When an export succeeds *)
Definition number_kind (t : string) : Prop := In t ["Int8"; "Int16"; "Int32"; "Int64"; "Float32"; "Float64"; "Decimal"].
(** a type spec that can be written out, in the place of a type of that name ("" where there is no name) *)
Inductive exportable (sch : schema) : typespec -> string -> Prop :=
| ex_leaf ts name : ~ In (ts_type ts) ["Array"; "Map"; "Struct"] -> ~ (ts_type ts = "Float64" /\ name <> "") -> exportable sch ts name
| ex_named ts name : ts_type ts = "Struct" -> name <> "" -> exportable sch ts name
| ex_array ts name its : ts_type ts = "Array" -> defines sch (ts_items ts) its -> exportable sch its (ts_items ts) -> exportable sch ts name
| ex_map ts name its : ts_type ts = "Map" -> defines sch (ts_items ts) its -> exportable sch its "" -> exportable sch ts name
| ex_struct ts : ts_type ts = "Struct" -> (forall f, In f (ts_fields ts) -> exportable sch (fd_spec f) "") -> exportable sch ts "".
Definition exportable_def (sch : schema) (td : typedef) : Prop :=
  let ts := td_spec td in
  In (ts_type ts) ["String"; "Bool"; "Enum"; "UUID"; "Union"; "Timestamp"] \/ number_kind (ts_type ts)
  \/ (In (ts_type ts) ["Array"; "Map"; "Struct"] /\ exportable sch ts "").
Definition exportable_http (sch : schema) (h : httpdef) : Prop :=
  (forall p, In p (h_inputs h) -> exportable sch (fd_spec (ps_field p)) "")
  /\ exists e, h_expected h = Some e /\ forall p, In p (xp_outputs e) -> exportable sch (fd_spec (ps_field p)) "".
(** no two actions of one path and method, of the methods that are written *)
Fixpoint no_clash (sch : schema) (hs : list httpdef) : Prop :=
  match hs with
  | [] => True
  | h :: r =>
      (forall h' p, In h' r -> In (h_method h) ["GET"; "PUT"; "DELETE"; "POST"] -> h_method h' = h_method h ->
         path_part (sc_base sch +++ h_path h) p -> ~ path_part (sc_base sch +++ h_path h') p)
      /\ no_clash sch r
  end.

(** ** Struct definitions, out and back *)
Definition kept_scalars : list string := ["Bool"; "Int32"; "Int64"; "Decimal"; "String"; "Timestamp"].
(** field types that come back as they were *)
Definition survives (sch : schema) (ts : typespec) : Prop :=
  In (ts_type ts) kept_scalars
  \/ (declared sch (ts_type ts) /\ ts_type ts <> "")
  \/ (ts_type ts = "Array"
      /\ (In (ts_items ts) kept_scalars
          \/ (ts_items ts <> "" /\ exists its, defines sch (ts_items ts) its /\ (ts_type its = "Struct" \/ ts_type its = "Enum")
              /\ declared sch (ts_items ts)))).
Definition same_field (f g : fielddef) : Prop :=
  fd_name g = fd_name f /\ fd_required g = fd_required f /\ ts_type (fd_spec g) = ts_type (fd_spec f)
  /\ (ts_type (fd_spec f) = "Array" -> ts_items (fd_spec g) = ts_items (fd_spec f)).
