(** C37-C40, C47, C53, C54: OpenAPI and GraphQL documents. *)
From Verif Require Import GoStr Outcome Value Schema Scalars Model SpecModel ModelFacts SpecPV SpecMisc SpecGen
  Graphql GraphqlFacts OpenApi SpecOpenApi OpenApiFacts OpenApiTotal Demo.

Definition model_of (sch : schema) : model := match new_model sch with Ok m => m | _ => mkModel sch [] [] end.
Definition act (name method path : string) (ins : list paramspec) (outs : list paramspec) (xs : list exceptionspec) : httpdef :=
  mkHttp name "" "" [] method path ins (Some (mkExp outs 200 "" [])) xs.
Definition par (n : string) (path : bool) (q h : string) (t : string) : paramspec := mkParam h q path (fld n false (ts_of t)).

(** ** C47 *)
(** Every name in the document is a built-in scalar, a declared scalar or a definition of the document, for models
    whose struct fields, arrays and unions use only types with a GraphQL counterpart; missing: the others, where it
    is false (next theorem). *)
Theorem C47_only_declared_partial : forall conf sch m ds scalars, new_model sch = Ok m ->
  gql_arrays_known sch ->
  (forall td f, In td (sc_types sch) -> ts_type (td_spec td) = "Struct" -> In f (ts_fields (td_spec td)) -> gql_field_known sch (fd_spec f)) ->
  (forall td v, In td (sc_types sch) -> ts_type (td_spec td) = "Union" -> In v (ts_variants (td_spec td)) -> of_kind sch gql_kinds (ts_type (uv_spec v))) ->
  gql_export conf m = Ok (ds, scalars) ->
  forall d n, In d ds -> gql_mentions d n -> In n gql_builtin \/ In n scalars \/ exists d', In d' ds /\ gql_name d' = n.
Proof. intros conf sch m ds scalars Hm. exact (export_known conf sch m Hm ds scalars). Qed.
Print Assumptions C47_only_declared_partial.
Definition gql_schema : schema := schema_of
  [ tdef "Color" (ts_enum ["red"; "green"]);
    tdef "Name" (ts_str "" None);
    tdef "Point" (ts_struct [fld "x" true (ts_of "Int64"); fld "name" false (ts_of "Name"); fld "at" true (ts_of "Timestamp")]);
    tdef "Points" (ts_array "Point" None None);
    tdef "Shape" (ts_struct [fld "corners" true (ts_of "Points"); fld "fill" false (ts_of "Color"); fld "more" false (ts_array "Shape" None None)]);
    tdef "Any2" (mkTS "Union" "" None None None [] [] None None "" "" [mkVariant "a" "" [] (ts_of "Point"); mkVariant "b" "" [] (ts_of "Shape")] "" "" "") ] [].
Definition gql_conf : scalar_conf := fun n => if n =?s "Timestamp" then "DateTime" else "".
Example C47_only_declared_partial_case :
  new_model gql_schema = Ok (model_of gql_schema)
  /\ gql_arrays_known gql_schema
  /\ (forall td f, In td (sc_types gql_schema) -> ts_type (td_spec td) = "Struct" -> In f (ts_fields (td_spec td)) -> gql_field_known gql_schema (fd_spec f))
  /\ (forall td v, In td (sc_types gql_schema) -> ts_type (td_spec td) = "Union" -> In v (ts_variants (td_spec td)) -> of_kind gql_schema gql_kinds (ts_type (uv_spec v)))
  /\ exists ds, gql_export gql_conf (model_of gql_schema) = Ok (ds, ["DateTime"]) /\ length ds = 4.
Proof.
  assert (K : forall n kinds, (exists i, match nth_error (sc_types gql_schema) i with Some td => td_name td = n /\ In (ts_type (td_spec td)) kinds | None => False end)
     -> of_kind gql_schema kinds n).
  { intros n kinds (i & H). destruct (nth_error _ i) as [td|] eqn:E; [|destruct H]. exists td. split; [eapply nth_error_In; exact E|exact H]. }
  split; [reflexivity|]. split; [|split; [|split]].
  - intros td I E. simpl in I. repeat (destruct I as [<-|I]; [try discriminate; apply K; exists 2; simpl; tauto|]). destruct I.
  - intros td f I E F. simpl in I.
    destruct I as [<-|[<-|[<-|[<-|[<-|[<-|[]]]]]]]; try discriminate; simpl in F.
    + destruct F as [<-|[<-|[<-|[]]]]; [left; simpl; tauto|right; right; apply K; exists 1; simpl; tauto|left; simpl; tauto].
    + destruct F as [<-|[<-|[<-|[]]]]; [right; right; apply K; exists 3; simpl; tauto|right; right; apply K; exists 0; simpl; tauto|].
      right. left. split; [reflexivity|]. apply K. exists 4. simpl. tauto.
  - intros td v I E F. simpl in I. destruct I as [<-|[<-|[<-|[<-|[<-|[<-|[]]]]]]]; try discriminate; simpl in F.
    destruct F as [<-|[<-|[]]]; apply K; [exists 2|exists 4]; simpl; tauto.
  - eexists. split; [vm_compute; reflexivity|reflexivity].
Qed.
(** A field that is an array of a base type is written with the SADL name of the base type, and a field of type
    Any or Bytes likewise: names that nothing declares. *)
Theorem C47_only_declared_refuted : exists sch m ds, new_model sch = Ok m /\ gql_export (fun _ => "") m = Ok (ds, [])
  /\ (exists d, In d ds /\ gql_mentions d "Int32") /\ (exists d, In d ds /\ gql_mentions d "Any") /\ (exists d, In d ds /\ gql_mentions d "Bytes")
  /\ forall n d, In n ["Int32"; "Any"; "Bytes"] -> In d ds -> ~ In n gql_builtin /\ gql_name d <> n.
Proof.
  set (sch := schema_of [tdef "S" (ts_struct [fld "a" true (ts_array "Int32" None None); fld "b" true (ts_of "Any"); fld "c" true (ts_of "Bytes")])] []).
  exists sch, (model_of sch). eexists. split; [reflexivity|]. split; [vm_compute; reflexivity|].
  split; [eexists; split; [left; reflexivity|eapply gm_list; left; reflexivity]|].
  split; [eexists; split; [left; reflexivity|eapply gm_name; right; left; reflexivity]|].
  split; [eexists; split; [left; reflexivity|eapply gm_name; right; right; left; reflexivity]|].
  intros n d [<-|[<-|[<-|[]]]] [<-|[]]; (split; [simpl; intuition discriminate|discriminate]).
Qed.
Print Assumptions C47_only_declared_refuted.
(** The document has exactly the enums, structs and unions of the model, in order, each with its own elements,
    fields (name, comment, required or not) or members, in order. *)
Theorem C47_definitions : forall conf sch m ds scalars, new_model sch = Ok m -> gql_export conf m = Ok (ds, scalars) ->
  exists tds, without (fun td => ~ In (ts_type (td_spec td)) gql_kinds) (sc_types sch) tds /\ Forall2 gql_stands tds ds.
Proof.
  intros conf sch m ds scalars Hm H. unfold gql_export in H. rewrite (proj1 (new_model_inv _ _ Hm)) in H.
  exists (filter in_document (sc_types sch)). split; [|eapply defs_shape; exact H].
  clear. induction (sc_types sch) as [|td l IH]; cbn [filter]; [constructor|]. destruct (in_document td) eqn:E.
  - apply wo_keep; [|exact IH]. intros N. apply N. apply str_mem_In. exact E.
  - apply wo_drop; [|exact IH]. intros X. apply str_mem_In in X. unfold in_document in E. congruence.
Qed.
Print Assumptions C47_definitions.
Example C47_definitions_case : new_model gql_schema = Ok (model_of gql_schema)
  /\ match gql_export gql_conf (model_of gql_schema) with Ok (ds, _) => map gql_name ds = ["Color"; "Point"; "Shape"; "Any2"] | _ => False end.
Proof. split; reflexivity. Qed.

(** ** C37 *)
(** Every $ref names a schema of the document, for models whose types avoid the spots that write a dangling one:
    inline Enum and Any in a field, an array or map of a union, a map of an enum, a union of base types, an
    exception type that is not declared.  Missing: those spots, where it is false (next theorem). *)
Theorem C37_resolves_partial : forall f64 sch m fuel doc, new_model sch = Ok m ->
  (forall td, In td (sc_types sch) -> oas_def_ok sch td) -> (forall h, In h (sc_http sch) -> oas_http_ok sch h) ->
  export_oas f64 m fuel = Ok doc -> forall r, doc_ref doc r -> resolves doc r.
Proof. intros f64 sch m fuel doc Hm. exact (export_resolves f64 sch m Hm fuel doc). Qed.
Print Assumptions C37_resolves_partial.
Definition same (d : decimal) : decimal := d.
Definition oas_demo : schema := schema_of
  [ tdef "Color" (ts_enum ["red"; "green"]);
    tdef "Point" (ts_struct [fld "x" true (ts_of "Int64"); fld "color" false (ts_of "Color"); fld "at" true (ts_of "Timestamp")]);
    tdef "Points" (ts_array "Point" None None);
    tdef "ByName" (ts_map "String" "Point");
    tdef "Oops" (ts_struct [fld "message" true (ts_of "String")]);
    tdef "Tree" (ts_struct [fld "kids" true (ts_array "Tree" None None); fld "pts" false (ts_array "Points" None None)]) ]
  [ act "getPoint" "GET" "/points/{id}?c={color}" [par "id" true "" "" "String"; par "color" false "c" "" "Color"; par "etag" false "" "X-Etag" "String"]
        [par "etag" false "" "Etag" "String"; par "point" false "" "" "Point"] [mkExc "Oops" 404 "" []];
    act "putPoint" "PUT" "/points/{id}" [par "id" true "" "" "String"; par "point" false "" "" "Point"] [par "point" false "" "" "Point"] [] ].
Lemma demo_declared n : (exists i, match nth_error (sc_types oas_demo) i with Some td => td_name td = n | None => False end) -> declared oas_demo n.
Proof. intros (i & H). destruct (nth_error _ i) as [td|] eqn:E; [|destruct H]. exists td. split; [eapply nth_error_In; exact E|exact H]. Qed.
Example C37_resolves_partial_case :
  new_model oas_demo = Ok (model_of oas_demo)
  /\ (forall td, In td (sc_types oas_demo) -> oas_def_ok oas_demo td) /\ (forall h, In h (sc_http oas_demo) -> oas_http_ok oas_demo h)
  /\ exists doc, export_oas same (model_of oas_demo) 5 = Ok doc /\ doc_ref doc "#/components/schemas/Color".
Proof.
  assert (IT : forall k n, (exists i, match nth_error (sc_types oas_demo) i with Some td => td_name td = n /\ In (ts_type (td_spec td)) (oas_scalars ++ k) | None => False end)
     -> oas_item_ok oas_demo k n).
  { intros k n (i & H). destruct (nth_error _ i) as [td|] eqn:E; [|destruct H]. right. exists td. split; [eapply nth_error_In; exact E|]. tauto. }
  split; [reflexivity|]. split; [|split].
  - intros td I. simpl in I. destruct I as [<-|[<-|[<-|[<-|[<-|[<-|[]]]]]]]; (split; [|split; [|split]]); intros E; try discriminate.
    + intros f [<-|[<-|[<-|[]]]]; [apply ofo_scalar; simpl; tauto|apply ofo_declared, demo_declared; exists 0; reflexivity|apply ofo_scalar; simpl; tauto].
    + apply IT. exists 1. simpl. tauto.
    + apply IT. exists 1. simpl. tauto.
    + intros f [<-|[]]. apply ofo_scalar. simpl. tauto.
    + intros f [<-|[<-|[]]]; (apply ofo_array; [reflexivity|]); apply IT; [exists 5|exists 2]; simpl; tauto.
  - intros h [<-|[<-|[]]]; (split; [|split]).
    + intros p [<-|[<-|[<-|[]]]]; [apply ofo_scalar; simpl; tauto|apply ofo_declared, demo_declared; exists 0; reflexivity|apply ofo_scalar; simpl; tauto].
    + intros e p E. injection E as <-. intros [<-|[<-|[]]]; [apply ofo_scalar; simpl; tauto|apply ofo_declared, demo_declared; exists 1; reflexivity].
    + intros x [<-|[]]. apply demo_declared. exists 4. reflexivity.
    + intros p [<-|[<-|[]]]; [apply ofo_scalar; simpl; tauto|apply ofo_declared, demo_declared; exists 1; reflexivity].
    + intros e p E. injection E as <-. intros [<-|[]]. apply ofo_declared, demo_declared. exists 1. reflexivity.
    + intros x [].
  - eexists. split; [vm_compute; reflexivity|]. eexists. split; [eapply ds_comp; right; left; reflexivity|].
    eapply hr_prop; [reflexivity|right; left; reflexivity|]. apply hr_here. discriminate.
Qed.
(** An inline enum, a field of type Any, a union of a base type, an array of a union: four dangling references. *)
Theorem C37_resolves_refuted : forall f64, exists sch m doc, new_model sch = Ok m /\ export_oas f64 m 5 = Ok doc
  /\ (doc_ref doc "#/components/schemas/" /\ ~ resolves doc "#/components/schemas/")
  /\ (doc_ref doc "#/components/schemas/Any" /\ ~ resolves doc "#/components/schemas/Any")
  /\ (doc_ref doc "#/components/schemas/String" /\ ~ resolves doc "#/components/schemas/String")
  /\ (doc_ref doc "#/components/schemas/Union" /\ ~ resolves doc "#/components/schemas/Union").
Proof.
  intros f64.
  set (sch := schema_of [tdef "S" (ts_struct [fld "a" true (ts_enum ["x"; "y"]); fld "b" true (ts_of "Any"); fld "c" false (ts_array "U" None None)]);
                         tdef "U" (mkTS "Union" "" None None None [] [] None None "" "" [mkVariant "s" "" [] (ts_of "String")] "" "" "")] []).
  exists sch, (model_of sch). eexists. split; [reflexivity|]. split; [vm_compute; reflexivity|].
  assert (N : forall doc x, ~ In x (map fst (od_schemas doc)) -> ~ resolves doc ("#/components/schemas/" +++ x)).
  { intros doc x H (n & s & E & I). apply H. apply (in_map fst) in I. injection E as ->. exact I. }
  split; [|split; [|split]]; (split; [|apply N; simpl; intuition discriminate]).
  - eexists. split; [eapply ds_comp; left; reflexivity|]. eapply hr_prop; [reflexivity|left; reflexivity|]. apply hr_here. discriminate.
  - eexists. split; [eapply ds_comp; left; reflexivity|]. eapply hr_prop; [reflexivity|right; left; reflexivity|]. apply hr_here. discriminate.
  - eexists. split; [eapply ds_comp; right; left; reflexivity|]. eapply hr_one; [left; reflexivity|]. apply hr_here. discriminate.
  - eexists. split; [eapply ds_comp; left; reflexivity|]. eapply hr_prop; [reflexivity|right; right; left; reflexivity|].
    eapply hr_items; [reflexivity|]. apply hr_here. discriminate.
Qed.
Print Assumptions C37_resolves_refuted.

(** ** C38 *)
(** The operations of the document are exactly the actions with method GET, PUT, DELETE or POST, each under its path
    without the query part and its method, once, with its name, comment and, in order, its parameters; the paths are
    exactly those of the actions.  Missing: actions of other methods, which are dropped (next theorem). *)
Theorem C38_operations_partial : forall f64 sch m fuel doc, new_model sch = Ok m -> export_oas f64 m fuel = Ok doc ->
  NoDup (map fst (od_paths doc)) /\ (forall p pi, In (p, pi) (od_paths doc) -> NoDup (map fst pi))
  /\ (forall p, In p (map fst (od_paths doc)) <-> exists h, In h (sc_http sch) /\ path_part (sc_base sch +++ h_path h) p)
  /\ (forall p mth id, (exists op, doc_op doc p mth op /\ oo_id op = id) <->
        exists h, In h (sc_http sch) /\ path_part (sc_base sch +++ h_path h) p /\ h_method h = mth
          /\ In mth ["GET"; "PUT"; "DELETE"; "POST"] /\ h_name h = id)
  /\ (forall p mth op, doc_op doc p mth op -> exists h kept, In h (sc_http sch) /\ h_name h = oo_id op /\ h_method h = mth
        /\ oo_summary op = h_comment h /\ without is_body (h_inputs h) kept /\ Forall2 param_stands kept (oo_params op)
        /\ (oo_body op <> None <-> exists q, In q (h_inputs h) /\ is_body q)).
Proof.
  intros f64 sch m fuel doc Hm H. destruct (export_ops f64 sch m Hm fuel doc H) as (N & D & P & O & T).
  split; [exact N|]. split; [exact D|]. split; [exact P|]. split.
  - intros p mth id. split.
    + intros (op & Q & E). apply O in Q. destruct Q as (h & I & Pp & M & M4 & OP). destruct (operation_id f64 m fuel h op OP) as (A & _).
      exists h. split; [exact I|]. split; [exact Pp|]. split; [exact M|]. split; [exact M4|congruence].
    + intros (h & I & Pp & M & M4 & E). destruct (T h I) as (op & OP). destruct (operation_id f64 m fuel h op OP) as (A & _).
      exists op. split; [apply O; exists h; auto|congruence].
  - intros p mth op Q. apply O in Q. destruct Q as (h & I & _ & M & _ & OP). destruct (operation_id f64 m fuel h op OP) as (A & B & _).
    destruct (operation_params f64 m fuel h op OP) as ((kept & W & F) & BD). exists h, kept. split; [exact I|]. split; [congruence|]. split; [exact M|]. split; [exact B|]. split; [exact W|]. split; [exact F|exact BD].
Qed.
Print Assumptions C38_operations_partial.
Example C38_operations_partial_case : new_model oas_demo = Ok (model_of oas_demo)
  /\ exists doc op, export_oas same (model_of oas_demo) 5 = Ok doc /\ doc_op doc "/points/{id}" "GET" op /\ oo_id op = "getPoint" /\ length (oo_params op) = 3.
Proof. split; [reflexivity|]. eexists _, _. split; [vm_compute; reflexivity|]. split; [eexists; split; [left; reflexivity|left; reflexivity]|split; reflexivity]. Qed.
(** A PATCH action leaves a path without operation. *)
Theorem C38_operations_refuted : forall f64, exists sch m doc, new_model sch = Ok m /\ export_oas f64 m 3 = Ok doc
  /\ (exists h, In h (sc_http sch) /\ h_method h = "PATCH" /\ h_path h = "/x") /\ od_paths doc = [("/x", [])].
Proof.
  intros f64. set (sch := schema_of [] [act "a" "PATCH" "/x" [] [par "v" false "" "" "String"] []]). exists sch, (model_of sch). eexists.
  split; [reflexivity|]. split; [vm_compute; reflexivity|]. split; [|reflexivity]. eexists. split; [left; reflexivity|]. split; reflexivity.
Qed.
Print Assumptions C38_operations_refuted.

(** ** C39 *)
(** A struct definition becomes an object with the field names as its properties, in particular one property per
    field when the names differ, and exactly the required ones listed, in order. *)
Theorem C39_struct : forall f64 sch m fuel doc td, new_model sch = Ok m -> export_oas f64 m fuel = Ok doc ->
  In td (sc_types sch) -> ts_type (td_spec td) = "Struct" ->
  exists s ps, In (td_name td, s) (od_schemas doc) /\ o_type s = "object" /\ o_props s = Some ps
  /\ o_required s = map fd_name (filter fd_required (ts_fields (td_spec td)))
  /\ NoDup (map fst ps) /\ (forall n, In n (map fst ps) <-> In n (map fd_name (ts_fields (td_spec td))))
  /\ (NoDup (map fd_name (ts_fields (td_spec td))) -> map fst ps = map fd_name (ts_fields (td_spec td))).
Proof. intros f64 sch m fuel doc td Hm. exact (struct_shape f64 sch m Hm fuel doc td). Qed.
Print Assumptions C39_struct.
Example C39_struct_case : new_model oas_demo = Ok (model_of oas_demo)
  /\ match export_oas same (model_of oas_demo) 5 with
     | Ok doc => match get "Point" (od_schemas doc) with
                 | Some s => o_required s = ["x"; "at"] /\ option_map (map fst) (o_props s) = Some ["x"; "color"; "at"]
                 | None => False end
     | _ => False end.
Proof. vm_compute. repeat split. Qed.
(** The components are exactly the types of the model, one for each. *)
Theorem C39_components : forall f64 sch m fuel doc, new_model sch = Ok m -> export_oas f64 m fuel = Ok doc ->
  NoDup (map fst (od_schemas doc)) /\ forall n, In n (map fst (od_schemas doc)) <-> declared sch n.
Proof.
  intros f64 sch m fuel doc Hm H. destruct (export_schemas f64 sch m Hm fuel doc H) as (L & T & N). split; [exact N|].
  intros n. rewrite in_map_iff. split.
  - intros ((k & s) & E & I). simpl in E. subst k. apply L in I. destruct I as (td & I & E & _). exists td. auto.
  - intros (td & I & E). destruct (T td I) as (s & S). exists (n, s). split; [reflexivity|]. apply L. exists td. auto.
Qed.
Print Assumptions C39_components.
Example C39_components_case : exists doc, export_oas same (model_of oas_demo) 5 = Ok doc
  /\ map fst (od_schemas doc) = ["Color"; "Point"; "Points"; "ByName"; "Oops"; "Tree"].
Proof. eexists. split; vm_compute; reflexivity. Qed.
(** A struct written inline in a field loses its list of required fields. *)
Theorem C39_inline_refuted : forall f64, exists sch m doc ps s, new_model sch = Ok m /\ export_oas f64 m 5 = Ok doc
  /\ sc_types sch = [tdef "S" (ts_struct [fld "in" true (ts_struct [fld "a" true (ts_of "String")])])]
  /\ od_schemas doc = [("S", ps)] /\ o_props ps = Some [("in", s)] /\ o_type s = "object" /\ o_required s = [].
Proof.
  intros f64. set (sch := schema_of [tdef "S" (ts_struct [fld "in" true (ts_struct [fld "a" true (ts_of "String")])])] []). exists sch, (model_of sch). eexists _, _, _.
  split; [reflexivity|]. split; [vm_compute; reflexivity|]. repeat split.
Qed.
Print Assumptions C39_inline_refuted.

(** ** C40 *)
(** What a base type comes back as, for every base type with a schema of its own and whatever its constraints. *)
Theorem C40_table : forall f64 m fuel ts s, In (ts_type ts) oas_scalars -> oas_schema f64 m fuel ts "" = Ok s ->
  exists ts', convert_oas s = Ok ts' /\ ts_type ts' = comes_back_as (ts_type ts).
Proof. exact base_back. Qed.
Print Assumptions C40_table.
Example C40_table_case : forall t, In t oas_scalars ->
  exists s ts', oas_schema same (model_of oas_demo) 1 (ts_num t (Some (DFin 3 0)) None) "" = Ok s /\ convert_oas s = Ok ts' /\ ts_type ts' = comes_back_as t.
Proof. intros t I. simpl in I. repeat (destruct I as [<-|I]; [eexists _, _; split; [reflexivity|split; reflexivity]|]). destruct I. Qed.
(** Bool, Int32, Int64, Decimal, String and Timestamp come back with their constraints: bounds after rounding to
    float64, the pattern, and sizes except a minimum of 0.  Missing: the seven other base types, where it is false,
    and the listed values of a string. *)
Theorem C40_kept_partial : forall f64 m fuel ts s, oas_schema f64 m fuel ts "" = Ok s ->
  (In (ts_type ts) ["Bool"; "Timestamp"] -> convert_oas s = Ok (ts_of (ts_type ts)))
  /\ (In (ts_type ts) ["Int32"; "Int64"; "Decimal"] ->
      convert_oas s = Ok (mkTS (ts_type ts) "" None None None [] [] (option_map f64 (ts_min ts)) (option_map f64 (ts_max ts)) "" "" [] "" "" ""))
  /\ (ts_type ts = "String" -> int64 (ts_minsize ts) -> int64 (ts_maxsize ts) ->
      convert_oas s = Ok (mkTS "String" (ts_pattern ts) None
        (match ts_minsize ts with Some 0%Z => None | o => o end) (ts_maxsize ts) [] [] None None "" "" [] "" "" "")).
Proof.
  intros f64 m fuel ts s H. split; [intros I; eapply plain_back; eassumption|]. split; [intros I; eapply number_back; eassumption|].
  intros E A B. eapply string_back; eassumption.
Qed.
Print Assumptions C40_kept_partial.
Example C40_kept_partial_case :
  let ts := mkTS "String" "[a-z]*" None (Some 3%Z) (Some 9%Z) [] [] None None "" "" [] "" "" "" in
  int64 (ts_minsize ts) /\ int64 (ts_maxsize ts)
  /\ match oas_schema same (model_of oas_demo) 1 ts "" with Ok s => convert_oas s = Ok ts | _ => False end.
Proof.
  cbv zeta. split; [intros z E; injection E as <-; split; reflexivity || discriminate|].
  split; [intros z E; injection E as <-; split; reflexivity || discriminate|]. reflexivity.
Qed.
(** Seven base types come back as something else, and the listed values of a string and a minimum size of 0 are
    lost. *)
Theorem C40_kept_refuted : forall f64 m, (forall t, In t ["Int8"; "Int16"; "Float32"; "Float64"; "Bytes"; "UnitValue"; "UUID"] ->
    exists s ts', oas_schema f64 m 1 (ts_of t) "" = Ok s /\ convert_oas s = Ok ts' /\ ts_type ts' <> t)
  /\ (exists s ts', oas_schema f64 m 1 (ts_str "" (Some ["a"; "b"])) "" = Ok s /\ convert_oas s = Ok ts' /\ ts_values ts' = None)
  /\ (exists s ts', oas_schema f64 m 1 (mkTS "String" "" None (Some 0%Z) None [] [] None None "" "" [] "" "" "") "" = Ok s
        /\ convert_oas s = Ok ts' /\ ts_minsize ts' = None).
Proof.
  intros f64 m. split; [|split; eexists _, _; repeat split].
  intros t I. simpl in I. repeat (destruct I as [<-|I]; [eexists _, _; split; [reflexivity|split; [reflexivity|discriminate]]|]). destruct I.
Qed.
Print Assumptions C40_kept_refuted.

(** ** C53 *)
(** The export succeeds, for every large enough bound, exactly when every type and action can be written. *)
Theorem C53_succeeds : forall f64 sch m, new_model sch = Ok m ->
  ((exists n, forall fuel, n <= fuel -> exists doc, export_oas f64 m fuel = Ok doc) <->
   (forall td, In td (sc_types sch) -> exportable_def sch td) /\ (forall h, In h (sc_http sch) -> exportable_http sch h) /\ no_clash sch (sc_http sch)).
Proof. intros f64 sch m Hm. exact (export_iff f64 sch m Hm). Qed.
Print Assumptions C53_succeeds.
Theorem C53_bound_irrelevant : forall f64 sch m, new_model sch = Ok m ->
  ((exists fuel doc, export_oas f64 m fuel = Ok doc) <-> (exists n, forall fuel, n <= fuel -> exists doc, export_oas f64 m fuel = Ok doc)).
Proof. intros f64 sch m Hm. exact (export_some f64 sch m Hm). Qed.
Print Assumptions C53_bound_irrelevant.
Example C53_succeeds_case : exists fuel doc, export_oas same (model_of oas_demo) fuel = Ok doc.
Proof. exists 5. eexists. vm_compute. reflexivity. Qed.
(** An accepted model for which the export never ends (an array of itself), and three on which it crashes: an array
    of Float64, an array of a type that is not declared, an action without an expected response. *)
Theorem C53_returns_refuted : forall f64,
  (exists sch m, new_model sch = Ok m /\ forall fuel, export_oas f64 m fuel = OutOfFuel)
  /\ (exists sch m, new_model sch = Ok m /\ sc_types sch = [tdef "A" (ts_array "Float64" None None)] /\ forall fuel, export_oas f64 m (S fuel) = Panic)
  /\ (exists sch m, new_model sch = Ok m /\ sc_types sch = [tdef "A" (ts_array "B" None None)] /\ forall fuel, export_oas f64 m fuel = Panic)
  /\ (exists sch m, new_model sch = Ok m /\ sc_http sch = [demo_action] /\ forall fuel, export_oas f64 m fuel = Panic).
Proof.
  intros f64. split; [|split; [|split]].
  - set (sch := schema_of [tdef "A" (ts_array "A" None None)] []). exists sch, (model_of sch). split; [reflexivity|].
    assert (L : forall fuel, oas_schema f64 (model_of sch) fuel (ts_array "A" None None) "A" = OutOfFuel).
    { induction fuel as [|fuel IH]; [reflexivity|]. cbn -[model_of find_type]. change (find_type (model_of sch) "A") with (Some (tdef "A" (ts_array "A" None None))).
      cbv beta iota. cbn [td_spec tdef]. rewrite IH. reflexivity. }
    intros fuel. unfold export_oas. change (sc_types (m_schema (model_of sch))) with [tdef "A" (ts_array "A" None None)]. cbn -[model_of find_type oas_schema].
    unfold export_array. change (find_type (model_of sch) (ts_items (td_spec (tdef "A" (ts_array "A" None None))))) with (Some (tdef "A" (ts_array "A" None None))).
    cbn [td_spec tdef]. cbn [ts_items ts_array]. rewrite L. reflexivity.
  - set (sch := schema_of [tdef "A" (ts_array "Float64" None None)] []). exists sch, (model_of sch). split; [reflexivity|]. split; reflexivity.
  - set (sch := schema_of [tdef "A" (ts_array "B" None None)] []). exists sch, (model_of sch). split; [reflexivity|]. split; reflexivity.
  - set (sch := schema_of [] [demo_action]). exists sch, (model_of sch). split; [reflexivity|]. split; reflexivity.
Qed.
Print Assumptions C53_returns_refuted.

(** ** C54 *)
(** A struct whose field types survive comes back from its exported schema with the same fields, in order, each
    with its name, type, item type and requiredness.  Missing: fields of the other types (see C40 and the next
    theorem), constraints and comments, and the rest of the document. *)
Theorem C54_struct_round_trip_partial : forall f64 sch m fuel doc td, new_model sch = Ok m -> export_oas f64 m fuel = Ok doc ->
  In td (sc_types sch) -> ts_type (td_spec td) = "Struct" -> NoDup (map fd_name (ts_fields (td_spec td))) ->
  (forall f, In f (ts_fields (td_spec td)) -> survives sch (fd_spec f)) ->
  exists s ts, In (td_name td, s) (od_schemas doc) /\ convert_oas s = Ok ts /\ ts_type ts = "Struct"
    /\ Forall2 same_field (ts_fields (td_spec td)) (ts_fields ts).
Proof. intros f64 sch m fuel doc td Hm. exact (struct_back f64 sch m Hm fuel doc td). Qed.
Print Assumptions C54_struct_round_trip_partial.
Example C54_struct_round_trip_partial_case :
  let td := tdef "Point" (ts_struct [fld "x" true (ts_of "Int64"); fld "color" false (ts_of "Color"); fld "at" true (ts_of "Timestamp")]) in
  In td (sc_types oas_demo) /\ NoDup (map fd_name (ts_fields (td_spec td))) /\ (forall f, In f (ts_fields (td_spec td)) -> survives oas_demo (fd_spec f))
  /\ exists doc, export_oas same (model_of oas_demo) 5 = Ok doc.
Proof.
  cbv zeta. split; [simpl; tauto|]. split; [repeat constructor; simpl; intuition discriminate|]. split; [|eexists; vm_compute; reflexivity].
  intros f [<-|[<-|[<-|[]]]]; [left; simpl; tauto| |left; simpl; tauto]. right. left. split; [apply demo_declared; exists 0; reflexivity|discriminate].
Qed.
(** A map comes back as a struct without fields; an array of a named string as an array of String. *)
Theorem C54_struct_round_trip_refuted : forall f64, exists sch m doc s ts, new_model sch = Ok m /\ export_oas f64 m 5 = Ok doc
  /\ sc_types sch = [tdef "N" (ts_of "String"); tdef "S" (ts_struct [fld "a" true (ts_map "String" "Int32"); fld "b" true (ts_array "N" None None)])]
  /\ In ("S", s) (od_schemas doc) /\ convert_oas s = Ok ts
  /\ map (fun f => ts_type (fd_spec f)) (ts_fields ts) = ["Struct"; "Array"] /\ map (fun f => ts_items (fd_spec f)) (ts_fields ts) = [""; "String"].
Proof.
  intros f64. set (sch := schema_of [tdef "N" (ts_of "String"); tdef "S" (ts_struct [fld "a" true (ts_map "String" "Int32"); fld "b" true (ts_array "N" None None)])] []).
  exists sch, (model_of sch). eexists _, _, _. split; [reflexivity|]. split; [vm_compute; reflexivity|]. split; [reflexivity|]. split; [right; left; reflexivity|].
  split; [vm_compute; reflexivity|]. split; reflexivity.
Qed.
Print Assumptions C54_struct_round_trip_refuted.
