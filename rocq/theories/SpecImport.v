(** Specifications for OpenAPI documents that are read; they use the records of OpenApi.v and OpenApiImport.v,
    none of their functions. *)
From Coq Require Import Permutation.
From Verif Require Import GoStr Value Schema SpecModel SpecPV SpecMisc SpecGen OpenApi OpenApiImport SpecOpenApi.

(** ** The same document with its maps met in another order *)
(** the entries of [l] in some order are related to those of [l'] one by one *)
Definition perm2 {A B} (R : A -> B -> Prop) (l : list A) (l' : list B) : Prop :=
  exists k, Permutation l k /\ Forall2 R k l'.
Definition keyed {A} (R : A -> A -> Prop) (x y : string * A) : Prop := fst x = fst y /\ R (snd x) (snd y).
Inductive both {A} (R : A -> A -> Prop) : option A -> option A -> Prop :=
| both_none : both R None None
| both_some a b : R a b -> both R (Some a) (Some b).

(** AdditionalProperties and OneOf, which are not compared, may differ *)
Inductive oas_alike : oas -> oas -> Prop :=
| oa_mk r t f d p mn mx mnl mxl en items items' addl addl' props props' req one one' :
    both oas_alike items items' ->
    both (perm2 (keyed oas_alike)) props props' ->
    oas_alike (mkOas r t f d p mn mx mnl mxl en items addl props req one)
              (mkOas r t f d p mn mx mnl mxl en items' addl' props' req one').
Definition oparam_alike (p q : oparam) : Prop :=
  op_in p = op_in q /\ op_pname p = op_pname q /\ op_req p = op_req q /\ op_desc p = op_desc q /\ oas_alike (op_schema p) (op_schema q).
Definition response_alike (r q : oresponse) : Prop :=
  or_desc r = or_desc q /\ both oas_alike (or_body r) (or_body q) /\ perm2 (keyed (keyed oas_alike)) (or_headers r) (or_headers q).
Definition operation_alike (a b : ooperation) : Prop :=
  oo_id a = oo_id b /\ oo_summary a = oo_summary b /\ oo_tags a = oo_tags b /\ Forall2 oparam_alike (oo_params a) (oo_params b)
  /\ both (keyed oas_alike) (oo_body a) (oo_body b) /\ perm2 (keyed response_alike) (oo_responses a) (oo_responses b)
  /\ oo_bodyreq a = oo_bodyreq b.
Definition doc_alike (a b : oasdoc) : Prop :=
  perm2 (keyed oas_alike) (od_schemas a) (od_schemas b)
  /\ perm2 (keyed (perm2 (keyed operation_alike))) (od_paths a) (od_paths b).

(** no key twice in a map *)
Definition keys_once {A} (l : list (string * A)) : Prop := NoDup (map fst l).
Definition doc_maps (d : oasdoc) : Prop :=
  keys_once (od_schemas d)
  /\ forall t pi, In (t, pi) (od_paths d) -> keys_once pi /\ forall mth op, In (mth, op) pi -> keys_once (oo_responses op).
(** an answer that stands for success: its status begins with 2 or 3 *)
Definition success_status (st : string) : Prop := exists r, st = "2" +++ r \/ st = "3" +++ r.
Definition one_success (op : ooperation) : Prop :=
  forall k k', In k (map fst (oo_responses op)) -> In k' (map fst (oo_responses op)) -> success_status k -> success_status k' -> k = k'.
Definition doc_one_success (d : oasdoc) : Prop := forall p mth op, doc_op d p mth op -> one_success op.

(** ** The same schema with its definitions in another order *)
Inductive ts_alike : typespec -> typespec -> Prop :=
| ta_mk t p v mns mxs fs fs' el mn mx it k vs u w r :
    perm2 (fun f g : fielddef => fd_name f = fd_name g /\ fd_comment f = fd_comment g /\ fd_annos f = fd_annos g
             /\ fd_required f = fd_required g /\ fd_default f = fd_default g /\ ts_alike (fd_spec f) (fd_spec g)) fs fs' ->
    ts_alike (mkTS t p v mns mxs fs el mn mx it k vs u w r) (mkTS t p v mns mxs fs' el mn mx it k vs u w r).
Definition field_alike (f g : fielddef) : Prop :=
  fd_name f = fd_name g /\ fd_comment f = fd_comment g /\ fd_annos f = fd_annos g
  /\ fd_required f = fd_required g /\ fd_default f = fd_default g /\ ts_alike (fd_spec f) (fd_spec g).
Definition td_alike (a b : typedef) : Prop :=
  td_name a = td_name b /\ td_comment a = td_comment b /\ td_annos a = td_annos b /\ ts_alike (td_spec a) (td_spec b).
Definition param_alike (p q : paramspec) : Prop :=
  ps_header p = ps_header q /\ ps_query p = ps_query q /\ ps_path p = ps_path q /\ field_alike (ps_field p) (ps_field q).
Definition expected_alike (a b : expectedspec) : Prop :=
  xp_status a = xp_status b /\ xp_comment a = xp_comment b /\ xp_annos a = xp_annos b /\ perm2 param_alike (xp_outputs a) (xp_outputs b).
Definition http_alike (a b : httpdef) : Prop :=
  h_name a = h_name b /\ h_resource a = h_resource b /\ h_comment a = h_comment b /\ h_annos a = h_annos b
  /\ h_method a = h_method b /\ h_path a = h_path b /\ Forall2 param_alike (h_inputs a) (h_inputs b)
  /\ both expected_alike (h_expected a) (h_expected b) /\ Permutation (h_exceptions a) (h_exceptions b).
Definition schema_alike (a b : schema) : Prop :=
  sc_name a = sc_name b /\ sc_version a = sc_version b /\ sc_comment a = sc_comment b /\ sc_annos a = sc_annos b
  /\ sc_base a = sc_base b /\ sc_examples a = sc_examples b /\ sc_operations a = sc_operations b
  /\ perm2 td_alike (sc_types a) (sc_types b) /\ perm2 http_alike (sc_http a) (sc_http b).

(** ** Actions, out and back *)
(** the letters and underscores of a name *)
Definition name_letter (c : ascii) : bool :=
  let n := nat_of_ascii c in (65 <=? n) && (n <=? 90) || (97 <=? n) && (n <=? 122) || (n =? 95).
Fixpoint letters (s : string) : string :=
  match s with EmptyString => "" | String c r => if name_letter c then String c (letters r) else letters r end.
(** a header without the x- in front *)
Definition bare_header (h b : string) : Prop :=
  (h = "x-" +++ b \/ h = "X-" +++ b) \/ (b = h /\ ~ exists r, h = "x-" +++ r \/ h = "X-" +++ r).

Definition text_types : list string := ["String"; "Bytes"; "Timestamp"; "UnitValue"; "UUID"].
Definition plain_spec (t items : string) : typespec := mkTS t "" None None None [] [] None None items "" [] "" "" "".
(** what the type of an input that is not the body comes back as; nothing for Map, Struct and Enum *)
Inductive input_type_back (sch : schema) : typespec -> typespec -> Prop :=
| it_bool ts : ts_type ts = "Bool" -> input_type_back sch ts (plain_spec "Bool" "")
| it_int ts : In (ts_type ts) ["Int8"; "Int16"; "Int32"; "Int64"] -> input_type_back sch ts (plain_spec "Int32" "")
| it_num ts : In (ts_type ts) ["Float32"; "Float64"; "Decimal"] -> input_type_back sch ts (plain_spec "Decimal" "")
| it_text ts : In (ts_type ts) text_types -> input_type_back sch ts (plain_spec "String" "")
| it_texts ts its : ts_type ts = "Array" -> defines sch (ts_items ts) its -> In (ts_type its) text_types ->
    input_type_back sch ts (plain_spec "Array" "String")
| it_others ts its : ts_type ts = "Array" -> defines sch (ts_items ts) its -> ~ In (ts_type its) text_types ->
    input_type_back sch ts (plain_spec "Array" "Any")
| it_named ts : ts_type ts <> "" -> ~ In (ts_type ts) (oas_scalars ++ ["Array"; "Map"; "Struct"; "Enum"]) ->
    input_type_back sch ts (plain_spec (ts_type ts) "").
Inductive input_back (sch : schema) : paramspec -> paramspec -> Prop :=
| ib_path p ts : ps_path p = true -> input_type_back sch (fd_spec (ps_field p)) ts ->
    input_back sch p (mkParam "" "" true (mkField (letters (fd_name (ps_field p))) (fd_comment (ps_field p)) [] true VNil ts))
| ib_query p ts : ps_path p = false -> ps_query p <> "" -> input_type_back sch (fd_spec (ps_field p)) ts ->
    input_back sch p (mkParam "" (ps_query p) false
      (mkField (letters (ps_query p)) (fd_comment (ps_field p)) [] (fd_required (ps_field p)) VNil ts))
| ib_header p ts : ps_path p = false -> ps_query p = "" -> ps_header p <> "" -> input_type_back sch (fd_spec (ps_field p)) ts ->
    input_back sch p (mkParam (ps_header p) "" false
      (mkField (letters (ps_header p)) (fd_comment (ps_field p)) [] (fd_required (ps_field p)) VNil ts)).
(** the body comes last, under its own name *)
Definition body_back (p g : paramspec) : Prop :=
  g = mkParam "" "" false (mkField "body" (fd_comment (ps_field p)) [] true VNil (plain_spec (ts_type (fd_spec (ps_field p))) "")).
Definition bodies_back (is_b : paramspec -> Prop) (back : paramspec -> paramspec -> Prop) (ps gs : list paramspec) : Prop :=
  (gs = [] /\ forall p, In p ps -> ~ is_b p)
  \/ exists g, gs = [g] /\ (exists p, In p ps /\ is_b p) /\ forall p, In p ps -> is_b p -> back p g.
Definition inputs_back (sch : schema) (ins gs : list paramspec) : Prop :=
  exists kept a b, without is_body ins kept /\ Forall2 (input_back sch) kept a /\ bodies_back is_body body_back ins b /\ gs = a ++ b.
(** outputs: a header is anything with a header name, the rest is the body *)
Definition is_payload (p : paramspec) : Prop := ps_header p = "".
Inductive header_back : paramspec -> paramspec -> Prop :=
| hb p b ts : bare_header (ps_header p) b -> ts_type ts = ts_type (fd_spec (ps_field p)) ->
    (ts_type (fd_spec (ps_field p)) = "Array" -> ts_items ts = ts_items (fd_spec (ps_field p))) ->
    header_back p (mkParam (ps_header p) "" false (mkField (letters b) (fd_comment (ps_field p)) [] false VNil ts)).
Inductive payload_back : paramspec -> paramspec -> Prop :=
| pb p ts : ts_type ts = ts_type (fd_spec (ps_field p)) ->
    (ts_type (fd_spec (ps_field p)) = "Array" -> ts_items ts = ts_items (fd_spec (ps_field p))) ->
    payload_back p (mkParam "" "" false (mkField "body" "" [] false VNil ts)).
Definition outputs_back (outs gs : list paramspec) : Prop :=
  exists kept a b, without is_payload outs kept /\ Forall2 header_back kept a /\ bodies_back is_payload payload_back outs b /\ gs = a ++ b.
Definition or_else (d s : string) : string := match s with EmptyString => d | _ => s end.
Definition expected_back (e g : expectedspec) : Prop :=
  xp_status g = xp_status e /\ xp_comment g = or_else "Expected response" (xp_comment e) /\ xp_annos g = []
  /\ outputs_back (xp_outputs e) (xp_outputs g).
Definition exception_back (x g : exceptionspec) : Prop :=
  g = mkExc (xc_type x) (xc_status x) (or_else "Exceptional response" (xc_comment x)) [].
(** the path and the query parameters in their order *)
Definition query_piece_of (p : paramspec) : string := ps_query p +++ "={" +++ letters (ps_query p) +++ "}".
Definition is_query (p : paramspec) : Prop := ps_path p = false /\ ps_query p <> "".
Definition path_back (sch : schema) (h : httpdef) (g : string) : Prop :=
  exists p qs, path_part (sc_base sch +++ h_path h) p /\ without (fun i => ~ is_query i) (h_inputs h) qs
  /\ g = match qs with [] => p | _ => p +++ "?" +++ join "&" (map query_piece_of qs) end.
Definition tags_of (h : httpdef) (t : string) : Prop := In ("x_tags", t) (h_annos h).
Definition action_back (sch : schema) (h g : httpdef) : Prop :=
  h_name g = h_name h /\ h_resource g = h_resource h /\ h_comment g = h_comment h /\ h_method g = h_method h
  /\ (forall t, h_annos g = [("x_tags", t)] <-> tags_of h t) /\ (h_annos g = [] <-> forall t, ~ tags_of h t)
  /\ path_back sch h (h_path g) /\ inputs_back sch (h_inputs h) (h_inputs g)
  /\ both expected_back (h_expected h) (h_expected g) /\ Forall2 exception_back (h_exceptions h) (h_exceptions g).

(** ** Actions for which this holds *)
Definition reference_type (ts : typespec) : Prop :=
  ts_type ts <> "" /\ ~ In (ts_type ts) (oas_scalars ++ ["Array"; "Map"; "Struct"; "Enum"]).
Definition at_most_one (P : paramspec -> Prop) (l : list paramspec) : Prop :=
  forall a p b q c, l = a ++ p :: b ++ q :: c -> P p -> ~ P q.
Definition action_ok (sch : schema) (h : httpdef) : Prop :=
  In (h_method h) ["GET"; "PUT"; "DELETE"; "POST"]
  /\ (exists p r, path_part (sc_base sch +++ h_path h) p /\ p = "/" +++ r)
  /\ NoDup (map fst (h_annos h))
  /\ (forall t, tags_of h t -> h_resource h <> "" /\ t <> "" /\ ~ exists r, t = "," +++ r)
  (* inputs *)
  /\ (forall i, In i (h_inputs h) -> ~ is_body i -> exists ts, input_type_back sch (fd_spec (ps_field i)) ts)
  /\ (forall i, In i (h_inputs h) -> ps_path i = true -> in_path (sc_base sch +++ h_path h) (letters (fd_name (ps_field i))))
  /\ (forall i, In i (h_inputs h) -> is_body i -> In (h_method h) ["PUT"; "POST"] /\ reference_type (fd_spec (ps_field i)))
  /\ at_most_one is_body (h_inputs h)
  (* outputs *)
  /\ (exists e, h_expected h = Some e /\ (200 <= xp_status e < 400)%Z
        /\ (forall o, In o (xp_outputs e) -> survives sch (fd_spec (ps_field o)))
        /\ at_most_one is_payload (xp_outputs e)
        /\ forall a p b q c, xp_outputs e = a ++ p :: b ++ q :: c -> ps_header p <> "" -> ps_header q <> ps_header p)
  (* exceptions *)
  /\ NoDup (map xc_status (h_exceptions h))
  /\ (forall x, In x (h_exceptions h) -> xc_status x = 0%Z \/ (100 <= xc_status x < 200)%Z \/ (400 <= xc_status x < 1000)%Z).

(** ** Documents that can be read *)
Definition digit_char (d : nat) : ascii := ascii_of_nat (48 + d).
Inductive digits_of : string -> Z -> Prop :=
| dg_one d : d < 10 -> digits_of (String (digit_char d) "") (Z.of_nat d)
| dg_more s z d : digits_of s z -> d < 10 -> digits_of (s +++ String (digit_char d) "") (10 * z + Z.of_nat d)%Z.
(** a number in decimal, with a sign or without, that fits 64 bits *)
Definition int_text (s : string) (z : Z) : Prop :=
  (digits_of s z \/ (exists r, s = "+" +++ r /\ digits_of r z) \/ (exists r n, s = "-" +++ r /\ digits_of r n /\ z = (- n)%Z))
  /\ (- 2 ^ 63 <= z < 2 ^ 63)%Z.
Definition has_x (s : string) : Prop := exists a b, s = a +++ "X" +++ b.
(** the type that a schema with a reference names *)
Definition ref_to (s : oas) (n : string) : Prop :=
  n <> "" /\ (o_ref s = "#/components/schemas/" +++ n \/ (n = o_ref s /\ ~ exists r, o_ref s = "#/components/schemas/" +++ r)).
Definition has_target (s : oas) : Prop := exists n, ref_to s n.
(** schemas of known types throughout *)
Inductive schema_safe : oas -> Prop :=
| ss_scalar s : In (o_type s) ["boolean"; "string"; "number"; "integer"] -> schema_safe s
| ss_array s : o_type s = "array" -> (forall i, o_items s = Some i -> o_ref i <> "" \/ schema_safe i) -> schema_safe s
| ss_object s : o_type s = "" \/ o_type s = "object" ->
    (forall ps n p, o_props s = Some ps -> In (n, p) ps -> has_target p \/ schema_safe p) -> schema_safe s.
Definition out_safe (s : oas) : Prop := o_ref s <> "" \/ schema_safe s.
Definition def_safe (all : list (string * oas)) (s : oas) : Prop :=
  (exists n d, ref_to s n /\ In (n, d) all /\ schema_safe d) \/ (~ has_target s /\ schema_safe s).
(** schemas that become types: not Decimal, and not Timestamp where it is a string *)
Definition def_kept (n : string) (s : oas) : Prop := n <> "" /\ n <> "Decimal" /\ (n = "Timestamp" -> o_type s <> "string").
Definition param_readable (path : string) (p : oparam) : Prop :=
  op_in p <> "cookie"
  /\ (op_in p = "path" -> exists a b, path = a +++ "{" +++ letters (op_pname p) +++ "}" +++ b)
  /\ (has_target (op_schema p) \/ In (o_type (op_schema p)) ["string"; "number"; "integer"; "array"; "boolean"]).
(** the answer taken for the expected one *)
Definition expected_answer (op : ooperation) (k : string) : Prop :=
  In k (map fst (oo_responses op))
  /\ (success_status k \/ (k = "default" /\ forall k', In k' (map fst (oo_responses op)) -> ~ success_status k')).
Definition expected_readable (k : string) (r : oresponse) : Prop :=
  (k = "default" \/ has_x k \/ exists z, int_text k z)
  /\ (forall h d s, In (h, (d, s)) (or_headers r) -> out_safe s) /\ (forall s, or_body r = Some s -> out_safe s).
Definition exception_readable (k : string) (r : oresponse) : Prop :=
  (k = "default" \/ (~ has_x k /\ exists z, int_text k z)) /\ (forall s, or_body r = Some s -> o_ref s <> "").
Definition operation_readable (path : string) (op : ooperation) : Prop :=
  (forall p, In p (oo_params op) -> param_readable path p)
  /\ exists k, expected_answer op k /\ forall k' r, In (k', r) (oo_responses op) ->
       (k' = k -> expected_readable k' r) /\ (k' <> k -> exception_readable k' r).
Definition op_read (doc : oasdoc) (p mth : string) (op : ooperation) : Prop :=
  doc_op doc p mth op /\ In mth ["GET"; "PUT"; "POST"; "DELETE"; "HEAD"] /\ ~ exists r, p = "x-" +++ r.
Definition doc_readable (doc : oasdoc) : Prop :=
  (forall n s, In (n, s) (od_schemas doc) -> def_kept n s -> def_safe (od_schemas doc) s /\ ~ In n builtin_names)
  /\ (forall p mth op, op_read doc p mth op -> operation_readable p op)
  /\ (forall p mth op p' mth' op', op_read doc p mth op -> op_read doc p' mth' op' -> oo_id op = oo_id op' -> p = p' /\ mth = mth').

(** ** Data, out and back *)
Section Kept.
(** rounding of a decimal to a float64, a schema, and the names of the types in question *)
Context (f64 : decimal -> decimal) (sch : schema) (K : string -> Prop).
Definition exact_bounds (ts : typespec) : Prop := forall d, ts_min ts = Some d \/ ts_max ts = Some d -> f64 d = d.
Definition int64_sizes (ts : typespec) : Prop :=
  forall z, ts_minsize ts = Some z \/ ts_maxsize ts = Some z -> (- 2 ^ 63 <= z < 2 ^ 63)%Z.
Definition no_sizes (ts : typespec) : Prop := ts_minsize ts = None /\ ts_maxsize ts = None.
(** what may follow Array< *)
Definition data_item (n : string) : Prop :=
  In n (["Bool"; "Timestamp"; "Any"; "String"] ++ number_kinds)
  \/ (K n /\ exists its, defines sch n its /\ (ts_type its = "Struct" \/ ts_type its = "Enum")).
Inductive data_field : typespec -> Prop :=
| df_plain ts : In (ts_type ts) ["Bool"; "Timestamp"; "Any"] -> data_field ts
| df_number ts : In (ts_type ts) number_kinds -> exact_bounds ts -> data_field ts
| df_string ts : ts_type ts = "String" -> ts_values ts = None -> int64_sizes ts -> data_field ts
| df_array ts : ts_type ts = "Array" -> no_sizes ts -> data_item (ts_items ts) -> data_field ts
| df_named ts : K (ts_type ts) -> data_field ts.
Inductive data_def : typespec -> Prop :=
| dd_bool ts : ts_type ts = "Bool" -> data_def ts
| dd_number ts : In (ts_type ts) number_kinds -> exact_bounds ts -> data_def ts
| dd_string ts : ts_type ts = "String" -> ts_values ts = None -> int64_sizes ts -> data_def ts
| dd_symbols ts v l : ts_type ts = "String" -> ts_values ts = Some (v :: l) -> Forall identifier (v :: l) -> no_sizes ts -> data_def ts
| dd_texts ts v l : ts_type ts = "String" -> ts_values ts = Some (v :: l) -> ~ Forall identifier (v :: l) -> int64_sizes ts -> data_def ts
| dd_time ts : In (ts_type ts) ["Timestamp"; "UUID"] -> ts_values ts = None -> data_def ts
| dd_enum ts : ts_type ts = "Enum" -> Forall identifier (map ee_symbol (ts_elements ts)) -> data_def ts
| dd_array ts : ts_type ts = "Array" -> no_sizes ts -> data_item (ts_items ts) -> data_def ts
| dd_struct ts : ts_type ts = "Struct" -> NoDup (map (@fd_name typespec) (ts_fields ts)) ->
    (forall f, In f (ts_fields ts) -> data_field (fd_spec f)) -> data_def ts.
Definition data_types : Prop :=
  forall n, K n -> n <> "" /\ exists td, In td (sc_types sch) /\ td_name td = n /\ data_def (td_spec td).
End Kept.

(** ** The head of a document, out and back *)
Definition head_back (name : string) (sch sch' : schema) : Prop :=
  (identifier (sc_name sch) -> sc_name sch' = sc_name sch /\ sc_comment sch' = sc_comment sch)
  /\ (sc_name sch = "" -> sc_name sch' = name /\ sc_comment sch' = sc_comment sch)
  /\ (sc_name sch <> "" -> ~ identifier (sc_name sch) -> sc_name sch' = name /\ sc_comment sch' = sc_name sch +++ " - " +++ sc_comment sch)
  /\ sc_version sch' = or_else "dev" (sc_version sch)
  /\ (forall k v, In (k, v) (sc_annos sch') <->
        (k = "x_openapi_version" /\ v = "3.0.0")
        \/ (k = "x_server" /\ (In (k, v) (sc_annos sch) \/ (v = "http://localhost:8000" /\ ~ In k (map fst (sc_annos sch)))))
        \/ (In k ["x_license_name"; "x_license_url"] /\ v <> "" /\ In (k, v) (sc_annos sch))).
