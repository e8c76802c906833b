(** C64-C73: a model written as a Smithy document and read back, and Smithy documents in general. *)
From Verif Require Import GoStr Outcome Value Schema Scalars Model SpecModel ModelFacts ValidateFacts SpecPV PVFacts Misc MiscFacts SpecMisc SpecGen
  OpenApi SpecOpenApi SpecImport Smithy SmithyAst SpecSmithy SmithyWrite SmithyShapes SmithyFinal SmithyTypes SmithyRead SmithyHttp SmithyRound
  SmithyKept SmithyData SmithyDocs Demo PropsExport.

Definition wt (t : string) (w : list variantdef) : typespec := mkTS t "" None None None [] [] None None "" "" w "" "" "".
Definition smithy_demo : schema := mkSchema "" "shapes" "" "1.2" "Some shapes."
  [ mkTD "Color" "the colours" [("x_tags", "a,b")] (mkTS "Enum" "" None None None [] [mkElt "red" "" [("x_enumValue", "#f00")]; elt "green"] None None "" "" [] "" "" "");
    tdef "Coord" (ts_num "Int64" None None);
    tdef "Name" (mkTS "String" "[a-z]+" None (Some 1%Z) (Some 5%Z) [] [] None None "" "" [] "" "" "");
    tdef "Point" (ts_struct [fld "x" true (ts_of "Coord"); fld "color" false (ts_of "Color"); fld "near" false (ts_of "Points")]);
    mkTD "Points" "" [("x_unique", "true")] (ts_array "Point" None None);
    tdef "ByName" (ts_map "String" "Point");
    tdef "Figure" (wt "Union" [mkVariant "point" "" [] (ts_of "Point"); mkVariant "color" "" [] (ts_of "Color")]);
    tdef "Oops" (ts_struct [fld "message" true (ts_of "String")]) ]
  [ mkEx "GetPointRequest" "one" (VMap [("id", VStr "a")]) "the first" []; mkEx "GetPointResponse" "one" (VMap [("point", VMap [("x", num 3)])]) "" [] ]
  [ mkOp "ping" "are you there" [] [fld "n" false (ts_of "Int32")] [mkOut "ok" "" [] (ts_of "Bool")] [] ]
  [ mkHttp "getPoint" "" "one point" [("x_paginated", "inputToken=tok,items=points")] "GET" "/points/{id}?c={color}"
      [par "id" true "" "" "String"; par "color" false "c" "" "Color"; par "etag" false "" "X-Etag" "String"]
      (Some (mkExp [par "etag" false "" "Etag" "String"; par "point" false "" "" "Point"] 200 "" [])) [mkExc "Oops" 404 "" []];
    act "putPoint" "PUT" "/points/{id}" [par "id" true "" "" "String"; par "point" false "" "" "Point"] [par "point" false "" "" "Point"] [] ]
  "/v1" [].
Definition demo_ns : string := "org.shapes".
Definition demo_ast : ast := match smithy_export demo_ns "Request" "Response" smithy_demo with Ok a => a | _ => mkAst [] [] end.
Lemma demo_written : smithy_export demo_ns "Request" "Response" smithy_demo = Ok demo_ast.
Proof. vm_compute. reflexivity. Qed.
Ltac ident := apply is_symbol_iff; vm_compute; reflexivity.
Ltac each_in := repeat match goal with
  | H : In _ (_ :: _) |- _ => destruct H as [<-|H]
  | H : In _ [] |- _ => destruct H
  | H : _ = _ \/ _ |- _ => destruct H as [<-|H]
  | H : False |- _ => destruct H
  end.
Ltac each_pair := repeat match goal with
  | H : _ = _ \/ _ |- _ => destruct H as [H|H]
  | H : False |- _ => destruct H
  | H : (_, _) = (_, _) |- _ => first [discriminate H|injection H; clear H; intros; subst]
  end.
Ltac nodup := repeat (constructor; [simpl; intuition discriminate|]); constructor.
Lemma nohash s : smem "#" s = false -> no_hash s. Proof. intros H. apply no_char_smem. exact H. Qed.
Lemma demo_plain : plain_names smithy_demo.
Proof.
  split; [|split; [|split]].
  - intros td I. simpl in I. each_in; ident.
  - intros h I. simpl in I. each_in; ident.
  - intros o I. simpl in I. each_in; ident.
  - right. ident.
Qed.
Lemma demo_annos : annos_once smithy_demo.
Proof.
  split; [|split].
  - intros h I. simpl in I. each_in; simpl; nodup.
  - intros td I. simpl in I. each_in; simpl; nodup.
  - intros td e I J. simpl in I. each_in; simpl in J; each_in; simpl; nodup.
Qed.
Lemma demo_names : new_model smithy_demo = Ok (model_of smithy_demo). Proof. reflexivity. Qed.
Lemma demo_free : collision_free smithy_demo.
Proof. exact (proj2 (proj2 (new_model_iff smithy_demo)) _ demo_names). Qed.
Lemma demo_regular : smithy_regular "Request" "Response" smithy_demo.
Proof.
  split; [exact demo_plain|]. split; [unfold names_apart; vm_compute; nodup|]. split.
  - intros h x I J. simpl in I. each_in; simpl in J; each_in. exists (tdef "Oops" (ts_struct [fld "message" true (ts_of "String")])). split; [simpl; tauto|reflexivity].
  - split; [exact demo_annos|]. split; [|split].
    + intros td I. simpl in I. each_in; simpl; (split; [|split]); intros T; try discriminate T; nodup.
    + split.
      * intros h I. simpl in I. each_in; simpl; (split; [discriminate|]); (split; [nodup|]); (split; [nodup|]); intros p J; destruct J as [J|J]; simpl in J; each_in; discriminate.
      * intros o I. simpl in I. each_in; simpl; split; nodup.
    + split; [|split].
      * intros td I. simpl in I. each_in; simpl; (split; [apply nohash; reflexivity|]); (split; [apply nohash; reflexivity|]); split; intros f J; each_in; apply nohash; reflexivity.
      * intros h p I J. simpl in I. each_in; simpl in J; destruct J as [J|J]; each_in; apply nohash; reflexivity.
      * intros o I. simpl in I. each_in; simpl; split; intros f J; each_in; apply nohash; reflexivity.
Qed.
Lemma demo_user : user_namespace demo_ns.
Proof. split; [apply nohash; reflexivity|discriminate]. Qed.

(** ** C64 *)
(** The models that can be written, exactly: every type is of a kind with a shape, every action has an expected
    response, paginated annotations are lists of settings, exceptions name shapes that are already there, and the
    examples taken up are objects.  Names are identifiers and keys of annotations differ, as the parser has it. *)
Theorem C64_writable_exact : forall ns insuf outsuf sch, plain_names sch -> annos_once sch ->
  ((exists a, smithy_export ns insuf outsuf sch = Ok a) <-> smithy_exportable insuf outsuf sch).
Proof. exact exportable_iff. Qed.
Print Assumptions C64_writable_exact.
Example C64_writable_exact_case : plain_names smithy_demo /\ annos_once smithy_demo /\ smithy_exportable "Request" "Response" smithy_demo.
Proof.
  split; [exact demo_plain|]. split; [exact demo_annos|]. apply (exportable_iff demo_ns "Request" "Response" smithy_demo demo_plain demo_annos). exists demo_ast. exact demo_written.
Qed.
Definition one_act (a : annos) (e : option expectedspec) (xs : list exceptionspec) : schema :=
  mkSchema "" "s" "" "" "" [] [] [] [mkHttp "getIt" "" "" a "GET" "/it" [] e xs] "" [].
(** Not every model can be written: a named Timestamp, an action without expected response and settings without an
    equals sign crash, an exception of an undeclared type is an error. *)
Theorem C64_writable_refuted : forall ns insuf outsuf,
  (exists sch m, new_model sch = Ok m /\ smithy_export ns insuf outsuf sch = Panic /\ sc_http sch = [])
  /\ (exists sch m, new_model sch = Ok m /\ smithy_export ns insuf outsuf sch = Panic /\ sc_types sch = [] /\ exists h, In h (sc_http sch) /\ h_expected h = None)
  /\ (exists sch m, new_model sch = Ok m /\ smithy_export ns insuf outsuf sch = Panic /\ sc_types sch = [] /\ exists h, In h (sc_http sch) /\ h_expected h <> None)
  /\ (exists sch m, new_model sch = Ok m /\ smithy_export ns insuf outsuf sch = Err tt).
Proof.
  intros ns insuf outsuf. split; [|split; [|split]].
  - exists (schema_of [tdef "When" (ts_of "Timestamp")] []). eexists. repeat split.
  - exists (one_act [] None []). eexists. repeat split. eexists. split; [left; reflexivity|reflexivity].
  - exists (one_act [("x_paginated", "items")] (Some (mkExp [] 200 "" [])) []). eexists. repeat split. eexists. split; [left; reflexivity|discriminate].
  - exists (one_act [] (Some (mkExp [] 200 "" [])) [mkExc "Oops" 404 "" []]). eexists. repeat split.
Qed.
Print Assumptions C64_writable_refuted.

(** ** C65 *)
(** Every target in the document is a shape of the document or of the Smithy prelude exactly if the model names only
    types that have a shape; missing: models with inline arrays, maps, enums and units, or unions over base types,
    where it is false. *)
Theorem C65_targets_partial : forall ns insuf outsuf sch a, user_namespace ns -> smithy_regular insuf outsuf sch ->
  smithy_export ns insuf outsuf sch = Ok a -> (refs_resolve a <-> smithy_refs_ok insuf outsuf sch).
Proof.
  intros ns insuf outsuf sch a HU (HP & NA & ED & AO & MO & PO & RP) EX. split.
  - exact (refs_needed ns insuf outsuf sch a HP NA ED MO PO EX HU RP).
  - intros H. refine (refs_resolve_ok ns insuf outsuf sch a HP _ EX H). intros td v I J. apply (proj1 RP td I). exact J.
Qed.
Print Assumptions C65_targets_partial.
Example C65_targets_partial_case : user_namespace demo_ns /\ smithy_regular "Request" "Response" smithy_demo
  /\ smithy_export demo_ns "Request" "Response" smithy_demo = Ok demo_ast /\ smithy_refs_ok "Request" "Response" smithy_demo.
Proof.
  split; [exact demo_user|]. split; [exact demo_regular|]. split; [exact demo_written|].
  assert (nm : forall n, str_mem n smithy_scalars || (str_mem n (shape_names "Request" "Response" smithy_demo) && negb (str_mem n ["Array"; "Map"])) = true -> nameable "Request" "Response" smithy_demo n).
  { intros n E. apply orb_true_iff in E. destruct E as [E|E]; [left; apply str_mem_In; exact E|right]. apply andb_true_iff in E. destruct E as [E1 E2]. split; [apply str_mem_In; exact E1|].
    apply negb_true_iff in E2. split; intros ->; discriminate E2. }
  unfold smithy_refs_ok. split; [|split; [|split; [|split; [|split; [|split]]]]].
  - intros td f I T J. simpl in I. each_in; try discriminate T; simpl in J; each_in; apply nm; vm_compute; reflexivity.
  - intros td I T. simpl in I. each_in; try discriminate T; apply nm; vm_compute; reflexivity.
  - intros td I T. simpl in I. each_in; try discriminate T; split; apply nm; vm_compute; reflexivity.
  - intros td v I T J. simpl in I. each_in; try discriminate T; simpl in J; each_in; (split; [apply str_mem_In; vm_compute; reflexivity|intros X; apply str_mem_In in X; vm_compute in X; discriminate X]).
  - intros h p I J. simpl in I. each_in; simpl in J; destruct J as [J|J]; each_in; apply nm; vm_compute; reflexivity.
  - intros o f I J. simpl in I. each_in; simpl in J; each_in; apply nm; vm_compute; reflexivity.
  - intros o f I J. simpl in I. each_in; simpl in J; each_in; apply nm; vm_compute; reflexivity.
Qed.
Lemma dangling a t : existsb (fun k => t =?s k) (map fst (as_shapes a) ++ map (fun n => "smithy.api#" +++ n) prelude) = false -> ~ ref_resolves a t.
Proof.
  intros E R. assert (X : existsb (fun k => t =?s k) (map fst (as_shapes a) ++ map (fun n => "smithy.api#" +++ n) prelude) = true); [|congruence].
  apply existsb_exists. exists t. split; [|apply seqb_refl]. apply in_app_iff. destruct R as [(n & I & ->)|(s & I)]; [right; apply (in_map (fun n => "smithy.api#" +++ n)); exact I|left; apply (in_map fst) in I; exact I].
Qed.
(** An array or an enum written in a field has no shape, and a union over base types names shapes without a
    namespace. *)
Theorem C65_targets_refuted : exists sch m a, new_model sch = Ok m /\ smithy_export demo_ns "Request" "Response" sch = Ok a
  /\ forall td, In td (sc_types sch) -> exists n s t, In (n, s) (as_shapes a) /\ n = demo_ns +++ "#" +++ td_name td /\ shape_ref s t /\ ~ ref_resolves a t.
Proof.
  exists (schema_of [tdef "Box" (ts_struct [fld "points" false (ts_array "Int32" None None)]); tdef "Tin" (ts_struct [fld "color" false (ts_enum ["red"])]);
    tdef "Pot" (wt "Union" [mkVariant "text" "" [] (ts_of "String")])] []). eexists _, _. split; [reflexivity|]. split; [vm_compute; reflexivity|].
  intros td I. simpl in I. each_in.
  - eexists _, _, _. split; [left; reflexivity|]. split; [reflexivity|]. split; [eapply sr_members; left; reflexivity|]. apply dangling. vm_compute. reflexivity.
  - eexists _, _, _. split; [right; left; reflexivity|]. split; [reflexivity|]. split; [eapply sr_members; left; reflexivity|]. apply dangling. vm_compute. reflexivity.
  - eexists _, _, _. split; [right; right; left; reflexivity|]. split; [reflexivity|]. split; [eapply sr_members; left; reflexivity|]. apply dangling. vm_compute. reflexivity.
Qed.
Print Assumptions C65_targets_refuted.

(** ** C66 *)
(** Every type, action and operation has a shape of its own with its members, inputs, outputs and errors, and the
    service lists all operations; missing: models where two of them have the same shape name (next theorem). *)
Theorem C66_definitions_partial : forall ns insuf outsuf sch a, smithy_regular insuf outsuf sch ->
  smithy_export ns insuf outsuf sch = Ok a -> definitions_kept ns insuf outsuf sch a.
Proof. intros ns insuf outsuf sch a (HP & NA & ED & AO & MO & PO & RP) EX. exact (kept ns insuf outsuf sch a HP NA ED AO MO PO EX). Qed.
Print Assumptions C66_definitions_partial.
Example C66_definitions_partial_case : smithy_regular "Request" "Response" smithy_demo /\ smithy_export demo_ns "Request" "Response" smithy_demo = Ok demo_ast
  /\ length (as_shapes demo_ast) = 18.
Proof. split; [exact demo_regular|]. split; [exact demo_written|]. vm_compute. reflexivity. Qed.
(** A type may have the name of an action, or of the inputs of one, and is then overwritten. *)
Theorem C66_definitions_refuted :
  (exists sch m a, new_model sch = Ok m /\ plain_names sch /\ smithy_export demo_ns "Request" "Response" sch = Ok a /\ length (sc_types sch) = 1 /\ length (sc_http sch) = 1
     /\ In "GetPoint" (map td_name (sc_types sch)) /\ forall n s, In (n, s) (as_shapes a) -> sh_type s <> "structure")
  /\ (exists sch m a, new_model sch = Ok m /\ plain_names sch /\ smithy_export demo_ns "Request" "Response" sch = Ok a
     /\ In "GetPointRequest" (map td_name (sc_types sch)) /\ forall n s, In (n, s) (as_shapes a) -> ~ In "mine" (map fst (sh_members s))).
Proof.
  split.
  - exists (mkSchema "" "s" "" "" "" [tdef "GetPoint" (ts_struct [fld "x" true (ts_of "Int32")])] [] [] [act "getPoint" "GET" "/p" [] [] []] "" []).
    eexists _, _. split; [reflexivity|]. split; [split; [|split; [|split]]; [intros td I|intros h I|intros o []|right; ident]; simpl in I; each_in; ident|]. split; [vm_compute; reflexivity|]. repeat (split; [simpl; auto|]).
    intros n s I. simpl in I. destruct I as [I|[I|[]]]; injection I as <- <-; discriminate.
  - exists (mkSchema "" "s" "" "" "" [tdef "GetPointRequest" (ts_struct [fld "mine" true (ts_of "Int32")])] [] [] [act "getPoint" "GET" "/p/{id}" [par "id" true "" "" "String"] [] []] "" []).
    eexists _, _. split; [reflexivity|]. split; [split; [|split; [|split]]; [intros td I|intros h I|intros o []|right; ident]; simpl in I; each_in; ident|]. split; [vm_compute; reflexivity|]. split; [simpl; auto|].
    intros n s I. simpl in I. destruct I as [I|[I|[I|[]]]]; injection I as <- <-; simpl; intuition discriminate.
Qed.
Print Assumptions C66_definitions_refuted.

(** ** C67 *)
(** Every type comes back, in its place, with what [type_back] lists: the kind, the comment with its lines trimmed,
    the fields with names, types and whether they are required, symbols, variants, items and keys, patterns, values,
    and the sizes, bounds and annotations that the decoder gives back.  Missing: field comments, defaults and
    annotations, sizes of arrays and maps, UUID fields, which are lost. *)
Theorem C67_types_partial : forall L ns insuf outsuf sch a name nspace service base, user_namespace ns -> suffixes insuf outsuf -> collision_free sch ->
  smithy_regular insuf outsuf sch -> smithy_export ns insuf outsuf sch = Ok a -> service = "" \/ service = ns +++ "#" +++ cap (sc_name sch) ->
  exists m', smithy_import L name nspace service base a = Ok m' /\ Forall2 (type_back L sch) (sc_types sch) (sc_types (m_schema m')).
Proof.
  intros L ns insuf outsuf sch a name nspace service base HU HS CF (HP & NA & ED & AO & MO & PO & RP) EX SV.
  destruct (smithy_round L ns insuf outsuf HU HS sch a CF HP NA ED AO MO PO RP EX name nspace service base SV) as (m' & E & T & _). exists m'. auto.
Qed.
Print Assumptions C67_types_partial.
Lemma f2_length {A B} (R : A -> B -> Prop) l l' : Forall2 R l l' -> length l = length l'.
Proof. intros H. induction H; simpl; congruence. Qed.
Lemma round_case : forall L, user_namespace demo_ns /\ suffixes "Request" "Response" /\ collision_free smithy_demo /\ smithy_regular "Request" "Response" smithy_demo
  /\ smithy_export demo_ns "Request" "Response" smithy_demo = Ok demo_ast
  /\ exists m', smithy_import L "" "" "" "" demo_ast = Ok m' /\ map td_name (sc_types (m_schema m')) = map td_name (sc_types smithy_demo) /\ length (sc_http (m_schema m')) = 2 /\ length (sc_operations (m_schema m')) = 1.
Proof.
  intros L. split; [exact demo_user|]. split; [left; auto|]. split; [exact demo_free|]. split; [exact demo_regular|]. split; [exact demo_written|].
  destruct demo_regular as (HP & NA & ED & AO & MO & PO & RP).
  destruct (smithy_round L demo_ns "Request" "Response" demo_user (or_introl (conj eq_refl eq_refl)) smithy_demo demo_ast demo_free HP NA ED AO MO PO RP demo_written "" "" "" "" (or_introl eq_refl)) as (m' & E & T & H & O & _).
  exists m'. split; [exact E|]. split; [|split].
  - clear - T. induction T as [|x y l l' (N & _) T IH]; [reflexivity|]. simpl. rewrite N, IH. reflexivity.
  - clear - H. assert (X := f2_length _ _ _ H). rewrite <- X. reflexivity.
  - clear - O. assert (X := f2_length _ _ _ O). rewrite <- X. reflexivity.
Qed.
Example C67_types_partial_case : forall L, user_namespace demo_ns /\ suffixes "Request" "Response" /\ collision_free smithy_demo /\ smithy_regular "Request" "Response" smithy_demo
  /\ smithy_export demo_ns "Request" "Response" smithy_demo = Ok demo_ast
  /\ exists m', smithy_import L "" "" "" "" demo_ast = Ok m' /\ map td_name (sc_types (m_schema m')) = map td_name (sc_types smithy_demo) /\ length (sc_http (m_schema m')) = 2 /\ length (sc_operations (m_schema m')) = 1.
Proof. exact round_case. Qed.
(** Types are not the same after export and import, whatever the decoder does: sizes of an array, the type of a UUID
    field and the comment of a field are lost, a String with the pattern of UUIDs becomes a UUID, a variant named
    Long becomes Int64. *)
Theorem C67_types_refuted : forall L, exists sch m a m', new_model sch = Ok m /\ smithy_export demo_ns "Request" "Response" sch = Ok a /\ smithy_import L "" "" "" "" a = Ok m'
  /\ map td_name (sc_types sch) = ["List3"; "Who"; "Text"; "Long"; "Pick"]
  /\ map (fun td => (ts_maxsize (td_spec td))) (sc_types sch) <> map (fun td => ts_maxsize (td_spec td)) (sc_types (m_schema m'))
  /\ map (fun td => map (fun f : fielddef => ts_type (fd_spec f)) (ts_fields (td_spec td))) (sc_types sch) = [[]; ["UUID"]; []; []; []]
  /\ map (fun td => map (fun f : fielddef => ts_type (fd_spec f)) (ts_fields (td_spec td))) (sc_types (m_schema m')) = [[]; ["String"]; []; []; []]
  /\ map (fun td => map (fun f : fielddef => fd_comment f) (ts_fields (td_spec td))) (sc_types sch) = [[]; ["whose"]; []; []; []]
  /\ map (fun td => map (fun f : fielddef => fd_comment f) (ts_fields (td_spec td))) (sc_types (m_schema m')) = [[]; [""]; []; []; []]
  /\ map (fun td => ts_type (td_spec td)) (sc_types sch) = ["Array"; "Struct"; "String"; "Int32"; "Union"]
  /\ map (fun td => ts_type (td_spec td)) (sc_types (m_schema m')) = ["Array"; "Struct"; "UUID"; "Int32"; "Union"]
  /\ map (fun td => map (fun v : variantdef => ts_type (uv_spec v)) (ts_variants (td_spec td))) (sc_types sch) = [[]; []; []; []; ["Long"]]
  /\ map (fun td => map (fun v : variantdef => ts_type (uv_spec v)) (ts_variants (td_spec td))) (sc_types (m_schema m')) = [[]; []; []; []; ["Int64"]].
Proof.
  intros L. exists (schema_of [tdef "List3" (ts_array "Int32" None (Some 3%Z)); tdef "Who" (ts_struct [mkField "id" "whose" [] true VNil (ts_of "UUID")]);
    tdef "Text" (ts_str uuid_text None); tdef "Long" (ts_of "Int32"); tdef "Pick" (wt "Union" [mkVariant "long" "" [] (ts_of "Long")])] []).
  eexists _, _, _. split; [reflexivity|]. split; [vm_compute; reflexivity|]. split; [vm_compute; reflexivity|]. split; [reflexivity|]. split; [discriminate|]. repeat (split; [reflexivity|]). reflexivity.
Qed.
Print Assumptions C67_types_refuted.

(** ** C68 *)
(** Every http action comes back, in its place, as [http_back] says: name, comment, method, path with its query
    written anew, tags and pagination, inputs with their places, expected status and outputs, exceptions.  Missing:
    resources, the keys of query parameters in the path, header-only inputs, which are lost. *)
Theorem C68_actions_partial : forall L ns insuf outsuf sch a name nspace service base, user_namespace ns -> suffixes insuf outsuf -> collision_free sch ->
  smithy_regular insuf outsuf sch -> smithy_export ns insuf outsuf sch = Ok a -> service = "" \/ service = ns +++ "#" +++ cap (sc_name sch) ->
  exists m', smithy_import L name nspace service base a = Ok m' /\ Forall2 (http_back L insuf outsuf sch) (sc_http sch) (sc_http (m_schema m')).
Proof.
  intros L ns insuf outsuf sch a name nspace service base HU HS CF (HP & NA & ED & AO & MO & PO & RP) EX SV.
  destruct (smithy_round L ns insuf outsuf HU HS sch a CF HP NA ED AO MO PO RP EX name nspace service base SV) as (m' & E & _ & T & _). exists m'. auto.
Qed.
Print Assumptions C68_actions_partial.
Example C68_actions_partial_case : forall L, user_namespace demo_ns /\ suffixes "Request" "Response" /\ collision_free smithy_demo /\ smithy_regular "Request" "Response" smithy_demo
  /\ smithy_export demo_ns "Request" "Response" smithy_demo = Ok demo_ast
  /\ exists m', smithy_import L "" "" "" "" demo_ast = Ok m' /\ map td_name (sc_types (m_schema m')) = map td_name (sc_types smithy_demo) /\ length (sc_http (m_schema m')) = 2 /\ length (sc_operations (m_schema m')) = 1.
Proof. exact round_case. Qed.
(** Actions are not the same: a query key is replaced by the name of its parameter, the base path becomes part of
    every path, inputs that are all headers become one body of a type that is not there, the status of an exception
    is the last one used for its type. *)
Theorem C68_actions_refuted : forall L, exists sch m a m', new_model sch = Ok m /\ smithy_export demo_ns "Request" "Response" sch = Ok a /\ smithy_import L "" "" "" "" a = Ok m'
  /\ map h_path (sc_http sch) = ["/p/{id}?k={key}"; "/q"] /\ map h_path (sc_http (m_schema m')) = ["/v1/p/{id}?key={key}"; "/v1/q"]
  /\ map (fun h => map (fun p => (fd_name (ps_field p), ts_type (fd_spec (ps_field p)))) (h_inputs h)) (sc_http sch) = [[("id", "String"); ("key", "String")]; [("tok", "String")]]
  /\ map (fun h => map (fun p => (fd_name (ps_field p), ts_type (fd_spec (ps_field p)))) (h_inputs h)) (sc_http (m_schema m')) = [[("id", "String"); ("key", "String")]; [("body", "GetQRequest")]]
  /\ ~ In "GetQRequest" (map td_name (sc_types (m_schema m')))
  /\ map (fun h => map xc_status (h_exceptions h)) (sc_http sch) = [[404%Z]; [409%Z]]
  /\ map (fun h => map xc_status (h_exceptions h)) (sc_http (m_schema m')) = [[sl_status L 409%Z]; [sl_status L 409%Z]].
Proof.
  intros L. exists (mkSchema "" "s" "" "" "" [tdef "Oops" (ts_struct [fld "message" true (ts_of "String")])] [] []
    [act "getP" "GET" "/p/{id}?k={key}" [par "id" true "" "" "String"; par "key" false "k" "" "String"] [] [mkExc "Oops" 404 "" []];
     act "getQ" "GET" "/q" [par "tok" false "" "X-Tok" "String"] [] [mkExc "Oops" 409 "" []]] "/v1" []).
  eexists _, _, _. split; [reflexivity|]. split; [vm_compute; reflexivity|]. split; [vm_compute; reflexivity|]. repeat (split; [reflexivity|]). split; [simpl; intuition discriminate|]. split; reflexivity.
Qed.
Print Assumptions C68_actions_refuted.

(** ** C69 *)
(** Every operation comes back with its name, comment, inputs and outputs; missing: whether inputs are required, and
    the exceptions, which are lost. *)
Theorem C69_operations_partial : forall L ns insuf outsuf sch a name nspace service base, user_namespace ns -> suffixes insuf outsuf -> collision_free sch ->
  smithy_regular insuf outsuf sch -> smithy_export ns insuf outsuf sch = Ok a -> service = "" \/ service = ns +++ "#" +++ cap (sc_name sch) ->
  exists m', smithy_import L name nspace service base a = Ok m' /\ Forall2 op_back (sc_operations sch) (sc_operations (m_schema m')).
Proof.
  intros L ns insuf outsuf sch a name nspace service base HU HS CF (HP & NA & ED & AO & MO & PO & RP) EX SV.
  destruct (smithy_round L ns insuf outsuf HU HS sch a CF HP NA ED AO MO PO RP EX name nspace service base SV) as (m' & E & _ & _ & T & _). exists m'. auto.
Qed.
Print Assumptions C69_operations_partial.
Example C69_operations_partial_case : forall L, user_namespace demo_ns /\ suffixes "Request" "Response" /\ collision_free smithy_demo /\ smithy_regular "Request" "Response" smithy_demo
  /\ smithy_export demo_ns "Request" "Response" smithy_demo = Ok demo_ast
  /\ exists m', smithy_import L "" "" "" "" demo_ast = Ok m' /\ map td_name (sc_types (m_schema m')) = map td_name (sc_types smithy_demo) /\ length (sc_http (m_schema m')) = 2 /\ length (sc_operations (m_schema m')) = 1.
Proof. exact round_case. Qed.
Theorem C69_operations_refuted : forall L, exists sch m a m', new_model sch = Ok m /\ smithy_export demo_ns "Request" "Response" sch = Ok a /\ smithy_import L "" "" "" "" a = Ok m'
  /\ map op_exceptions (sc_operations sch) = [["Oops"]] /\ map op_exceptions (sc_operations (m_schema m')) = [[]]
  /\ map (fun o => map (@fd_required typespec) (op_inputs o)) (sc_operations sch) = [[true]] /\ map (fun o => map (@fd_required typespec) (op_inputs o)) (sc_operations (m_schema m')) = [[false]].
Proof.
  intros L. exists (mkSchema "" "s" "" "" "" [tdef "Oops" (ts_struct [fld "message" true (ts_of "String")])] [] [mkOp "ping" "" [] [fld "n" true (ts_of "Int32")] [] ["Oops"]] [] "" []).
  eexists _, _, _. split; [reflexivity|]. split; [vm_compute; reflexivity|]. split; [vm_compute; reflexivity|]. repeat (split; [reflexivity|]). reflexivity.
Qed.
Print Assumptions C69_operations_refuted.

(** ** C70 *)
(** What comes back of the head: the name with a capital, the version, and the base path as an annotation.  Missing:
    the comment, the annotations, the namespace (which is an option of the import) and, without actions and
    operations, name and version. *)
Theorem C70_head_partial : forall L ns insuf outsuf sch a name nspace service base, user_namespace ns -> suffixes insuf outsuf -> collision_free sch ->
  smithy_regular insuf outsuf sch -> smithy_export ns insuf outsuf sch = Ok a -> service = "" \/ service = ns +++ "#" +++ cap (sc_name sch) ->
  exists m', smithy_import L name nspace service base a = Ok m' /\ smithy_head_back name nspace base sch (m_schema m').
Proof.
  intros L ns insuf outsuf sch a name nspace service base HU HS CF (HP & NA & ED & AO & MO & PO & RP) EX SV.
  destruct (smithy_round L ns insuf outsuf HU HS sch a CF HP NA ED AO MO PO RP EX name nspace service base SV) as (m' & E & _ & _ & _ & T & _). exists m'. auto.
Qed.
Print Assumptions C70_head_partial.
Example C70_head_partial_case : forall L, user_namespace demo_ns /\ suffixes "Request" "Response" /\ collision_free smithy_demo /\ smithy_regular "Request" "Response" smithy_demo
  /\ smithy_export demo_ns "Request" "Response" smithy_demo = Ok demo_ast
  /\ exists m', smithy_import L "" "" "" "" demo_ast = Ok m' /\ map td_name (sc_types (m_schema m')) = map td_name (sc_types smithy_demo) /\ length (sc_http (m_schema m')) = 2 /\ length (sc_operations (m_schema m')) = 1.
Proof. exact round_case. Qed.
Theorem C70_head_refuted : forall L, exists m', smithy_import L "" "" "" "" demo_ast = Ok m'
  /\ sc_comment smithy_demo = "Some shapes." /\ sc_comment (m_schema m') = "" /\ sc_base smithy_demo = "/v1" /\ sc_base (m_schema m') = ""
  /\ sc_name smithy_demo = "shapes" /\ sc_name (m_schema m') = "Shapes".
Proof.
  intros L. destruct (C70_head_partial L demo_ns "Request" "Response" smithy_demo demo_ast "" "" "" "" demo_user (or_introl (conj eq_refl eq_refl)) demo_free demo_regular demo_written (or_introl eq_refl)) as (m' & E & H).
  exists m'. split; [exact E|]. destruct H as (N & _ & _ & C & B & _). rewrite N, C, B. repeat split.
Qed.
Print Assumptions C70_head_refuted.

(** ** C71 *)
(** The examples that come back are those of requests, and of responses that go with a request of the same name;
    missing: that their targets are the same (next theorem). *)
Theorem C71_examples_partial : forall L ns insuf outsuf sch a name nspace service base, user_namespace ns -> plain_start ns -> suffixes insuf outsuf -> collision_free sch ->
  smithy_regular insuf outsuf sch -> NoDup (map (fun ex => (ex_target ex, ex_name ex)) (sc_examples sch)) ->
  smithy_export ns insuf outsuf sch = Ok a -> service = "" \/ service = ns +++ "#" +++ cap (sc_name sch) ->
  exists m', smithy_import L name nspace service base a = Ok m' /\ forall g, In g (sc_examples (m_schema m')) <-> example_back L ns sch g.
Proof.
  intros L ns insuf outsuf sch a name nspace service base HU PS HS CF (HP & NA & ED & AO & MO & PO & RP) ND EX SV.
  destruct (smithy_round L ns insuf outsuf HU HS sch a CF HP NA ED AO MO PO RP EX name nspace service base SV) as (m' & E & _ & _ & _ & _ & T). exists m'. split; [exact E|]. rewrite T.
  exact (examples_read L ns insuf outsuf HU sch a HP AO EX PS ND).
Qed.
Print Assumptions C71_examples_partial.
Example C71_examples_partial_case : forall L, user_namespace demo_ns /\ plain_start demo_ns /\ collision_free smithy_demo /\ smithy_regular "Request" "Response" smithy_demo
  /\ NoDup (map (fun ex => (ex_target ex, ex_name ex)) (sc_examples smithy_demo)) /\ smithy_export demo_ns "Request" "Response" smithy_demo = Ok demo_ast
  /\ exists g, example_back L demo_ns smithy_demo g /\ ex_comment g = "the first".
Proof.
  intros L. split; [exact demo_user|]. split; [intros c r E; injection E as <- _; unfold ascii7; vm_compute; repeat constructor|]. split; [exact demo_free|]. split; [exact demo_regular|].
  split; [simpl; nodup|]. split; [exact demo_written|]. eexists. split; [eapply eb_request; [left; reflexivity|left; reflexivity|reflexivity]|reflexivity].
Qed.
(** The target of an example comes back with the namespace in it, so no type has that name any more; an example
    without a request is lost. *)
Theorem C71_examples_refuted : forall L, exists sch m a m', new_model sch = Ok m /\ smithy_export demo_ns "Request" "Response" sch = Ok a /\ smithy_import L "" "" "" "" a = Ok m'
  /\ map ex_target (sc_examples sch) = ["GetPRequest"; "Oops"] /\ map ex_target (sc_examples (m_schema m')) = ["Org.shapes#GetPRequest"].
Proof.
  intros L. exists (mkSchema "" "s" "" "" "" [tdef "Oops" (ts_struct [fld "message" true (ts_of "String")])]
    [mkEx "GetPRequest" "a" (VMap [("id", VStr "x")]) "" []; mkEx "Oops" "b" (VMap [("message", VStr "x")]) "" []] []
    [act "getP" "GET" "/p/{id}" [par "id" true "" "" "String"] [] []] "" []).
  eexists _, _, _. split; [reflexivity|]. split; [vm_compute; reflexivity|]. split; [vm_compute; reflexivity|]. split; reflexivity.
Qed.
Print Assumptions C71_examples_refuted.

(** ** C72 *)
(** Validation against a type gives the same verdict before and after, for all data, for types built from the
    constructs in [smithy_data]: numbers and strings with the limits that the decoder gives back, UUIDs, enums,
    unions, structs nested and recursive, arrays and maps without sizes.  Missing: UUID fields, sized arrays, limits
    written in a field, where it is false (next theorem). *)
Theorem C72_data_partial : forall L ns insuf outsuf sch m a name nspace service base K, new_model sch = Ok m -> user_namespace ns -> suffixes insuf outsuf ->
  smithy_regular insuf outsuf sch -> smithy_export ns insuf outsuf sch = Ok a -> service = "" \/ service = ns +++ "#" +++ cap (sc_name sch) -> smithy_data_types L K sch ->
  exists m', smithy_import L name nspace service base a = Ok m' /\ forall X ctx ctx' n v, K n -> vwf v ->
  ((exists k, validate X m k ctx n v = Ok tt) <-> (exists k, validate X m' k ctx' n v = Ok tt)).
Proof.
  intros L ns insuf outsuf sch m a name nspace service base K Hm HU HS (HP & NA & ED & AO & MO & PO & RP) EX SV D. assert (CF := proj2 (proj2 (new_model_iff sch)) m Hm).
  destruct (smithy_round L ns insuf outsuf HU HS sch a CF HP NA ED AO MO PO RP EX name nspace service base SV) as (m' & E & T & _). exists m'. split; [exact E|].
  assert (M' : new_model (m_schema m') = Ok m').
  { unfold smithy_import in E. apply rbind_Ok in E. destruct E as (s' & _ & E). destruct (new_model s') as [m0| | |] eqn:NM; try discriminate. injection E as <-. rewrite (proj1 (new_model_inv _ _ NM)). exact NM. }
  intros X ctx ctx' n v. exact (smithy_verdict L sch (m_schema m') m m' K Hm M' T D X ctx ctx' n v).
Qed.
Print Assumptions C72_data_partial.
(** a decoder that gives sizes back *)
Definition demo_lib : slib := mkLib (fun _ => false) (fun z => z) (fun z => z) (fun z => z) (fun _ => "") (fun _ => None) (fun v => v).
Example C72_data_partial_case : new_model smithy_demo = Ok (model_of smithy_demo) /\ smithy_regular "Request" "Response" smithy_demo
  /\ smithy_export demo_ns "Request" "Response" smithy_demo = Ok demo_ast /\ smithy_data_types demo_lib (fun n => declared smithy_demo n) smithy_demo.
Proof.
  split; [reflexivity|]. split; [exact demo_regular|]. split; [exact demo_written|]. intros n (td & I & E). exists td. split; [exact I|]. split; [exact E|]. clear n E.
  assert (DC : forall i, match nth_error (sc_types smithy_demo) i with Some td => declared smithy_demo (td_name td) | None => True end).
  { intros i. destruct (nth_error (sc_types smithy_demo) i) as [x|] eqn:E; [|exact Logic.I]. apply nth_error_In in E. exists x. auto. }
  simpl in I. each_in.
  - apply sd_plain. simpl. tauto.
  - apply sd_number; [simpl; tauto|reflexivity|reflexivity].
  - apply sd_string; [reflexivity|discriminate|discriminate|]. split; intros z Q; injection Q as <-; [reflexivity|split; [reflexivity|discriminate]].
  - apply sd_struct; [reflexivity|]. intros f J. simpl in J. each_in; apply sf_named; [exact (DC 1)|exact (DC 0)|exact (DC 4)].
  - apply sd_items; [simpl; tauto|split; reflexivity|]. right. exact (DC 3).
  - apply sd_items; [simpl; tauto|split; reflexivity|]. right. exact (DC 3).
  - apply sd_plain. simpl. tauto.
  - apply sd_struct; [reflexivity|]. intros f J. simpl in J. each_in. apply sf_string; [reflexivity|reflexivity|reflexivity|split; reflexivity].
Qed.
(** Sized arrays, UUID fields and values in a field accept more afterwards, whatever the decoder does. *)
Theorem C72_data_refuted : forall L X ctx, exists sch m a m', new_model sch = Ok m /\ smithy_export demo_ns "Request" "Response" sch = Ok a /\ smithy_import L "" "" "" "" a = Ok m'
  /\ (exists v, vwf v /\ (exists e, validate X m 5 ctx "A" v = Err e) /\ validate X m' 5 ctx "A" v = Ok tt)
  /\ (exists v, vwf v /\ (exists e, validate X m 5 ctx "S" v = Err e) /\ validate X m' 5 ctx "S" v = Ok tt)
  /\ (exists v, vwf v /\ (exists e, validate X m 5 ctx "T" v = Err e) /\ validate X m' 5 ctx "T" v = Ok tt).
Proof.
  intros L X ctx. set (sch := schema_of [tdef "A" (ts_array "Bool" None (Some 1%Z)); tdef "S" (ts_struct [fld "id" true (ts_of "UUID")]);
    tdef "T" (ts_struct [fld "t" true (ts_str "" (Some ["a"; "b"]))])] []).
  exists sch, (model_of sch). eexists _, _. split; [reflexivity|]. split; [vm_compute; reflexivity|]. split; [vm_compute; reflexivity|].
  assert (W : forall k x, vwf x -> vwf (VMap [(k, x)])). { intros k x H. apply wf_map; [constructor; [intros []|constructor]|]. constructor; [exact H|constructor]. }
  split; [exists (VArr [VBool true; VBool true]); split; [apply wf_arr; repeat constructor; discriminate|split; [eexists; reflexivity|reflexivity]]|].
  split; [exists (VMap [("id", VStr "a")]); split; [apply W; apply wf_leaf; discriminate|split; [eexists; reflexivity|reflexivity]]|].
  exists (VMap [("t", VStr "c")]). split; [apply W; apply wf_leaf; discriminate|split; [eexists; reflexivity|reflexivity]].
Qed.
Print Assumptions C72_data_refuted.

(** ** C73 *)
(** The documents that give a model, exactly, and those on which the reader crashes, exactly. *)
Theorem C73_readable_exact : forall L a name nspace service base, maps_once a ->
  ((exists m, smithy_import L name nspace service base a = Ok m) <-> smithy_readable a service).
Proof. intros L a name nspace service base M. exact (readable_iff L a M name nspace service base). Qed.
Print Assumptions C73_readable_exact.
Theorem C73_crash_exact : forall L a name nspace service base, maps_once a ->
  (smithy_import L name nspace service base a = Panic <-> one_service a service /\ ~ shapes_ok a).
Proof. intros L a name nspace service base M. exact (crash_iff L a M name nspace service base). Qed.
Print Assumptions C73_crash_exact.
Example C73_readable_exact_case : maps_once demo_ast /\ smithy_readable demo_ast "" /\ one_service demo_ast "".
Proof.
  assert (M : maps_once demo_ast).
  { unfold maps_once. split; [vm_compute; nodup|]. split; [vm_compute; intuition discriminate|]. split.
    - intros n s I. vm_compute in I. each_pair; simpl; nodup.
    - intros n s l I J. vm_compute in I. each_pair; simpl in J; each_pair; simpl; nodup. }
  assert (R : smithy_readable demo_ast ""); [|split; [exact M|split; [exact R|exact (proj1 R)]]].
  apply (readable_iff demo_lib demo_ast M "" "" "" ""). eexists. vm_compute. reflexivity.
Qed.
(** Reading crashes on documents that can be written down: an operation whose output is not there, a list without
    member, a shape of another type, an error that is not there, a trait named like a shape that is no trait. *)
Definition sh (t : string) (tr : traits) (o : option string) (xs : list string) : shape := mkShape t "" tr [] None None None None o xs [].
Theorem C73_crash_refuted : forall L name nspace service base, exists docs, length docs = 5 /\ forall a, In a docs -> maps_once a /\ smithy_import L name nspace service base a = Panic.
Proof.
  intros L name nspace service base.
  exists [ mkAst [] [("n#Op", sh "operation" [] (Some "n#Out") [])]; mkAst [] [("n#L", sh "list" [] None [])]; mkAst [] [("n#T", sh "bigThing" [] None [])];
    mkAst [] [("n#Op", sh "operation" [("smithy.api#http", TObj [("method", TStr "GET"); ("uri", TStr "/")])] None ["n#E"])];
    mkAst [] [("n#S", sh "structure" [("n#B", TBool true)] None []); ("n#B", sh "structure" [] None [])] ].
  split; [reflexivity|]. intros a I. simpl in I.
  assert (M : maps_once a).
  { each_in; (split; [simpl; nodup|]); (split; [simpl; intuition discriminate|]); split; [intros n s J|intros n s l J K|intros n s J|intros n s l J K|intros n s J|intros n s l J K|intros n s J|intros n s l J K|intros n s J|intros n s l J K];
      simpl in J; each_pair; try (simpl in K; each_pair); simpl; nodup. }
  split; [exact M|]. destruct (service_runs a M service) as [[O _]|[O _]].
  - apply (crash_iff L a M name nspace service base). split; [exact O|]. intros SO.
    each_in; [specialize (SO "n#Op" _ (or_introl eq_refl))|specialize (SO "n#L" _ (or_introl eq_refl))|specialize (SO "n#T" _ (or_introl eq_refl))|specialize (SO "n#Op" _ (or_introl eq_refl))|specialize (SO "n#S" _ (or_introl eq_refl))].
    all: match type of SO with ?P -> _ => assert (NIO : P); [intros (k & o & J & T & Q); simpl in J; each_pair; simpl in *; discriminate|specialize (SO NIO)] end.
    + destruct SO as [J _|J|m J _|k v J _ _|J _ _|m J (l & H & _) _ _ _|J _ _ H]; simpl in J; try (exfalso; intuition discriminate); try (destruct H; fail). destruct (H "n#Out" (or_intror eq_refl)) as (s & X). simpl in X. each_pair.
    + destruct SO as [J _|J|m J H|k v J _ _|J _ _|m J _ _ _ _|J _ _ H]; simpl in J; try (exfalso; intuition discriminate); discriminate.
    + destruct SO as [J _|J|m J H|k v J _ _|J _ _|m J _ _ _ _|J _ _ H]; simpl in J; try (exfalso; intuition discriminate); discriminate.
    + destruct SO as [J _|J|m J H|k v J _ _|J _ _|m J _ _ _ H|J H _ _]; simpl in J; try (exfalso; intuition discriminate).
      * destruct (H "n#E" (or_introl eq_refl)) as (s & X). simpl in X. each_pair.
      * apply (H "GET"). exists [("method", TStr "GET"); ("uri", TStr "/")]. simpl. repeat split; auto. discriminate.
    + destruct SO as [J _|J|m J H|k v J _ _|J H _|m J _ _ _ H|J H _ _]; simpl in J; try (exfalso; intuition discriminate). destruct (H "n#B" _ (or_introl eq_refl)) as [K|K]; [simpl in K; intuition discriminate|].
      destruct (K _ (or_intror (or_introl eq_refl))) as (l & X). destruct X.
  - exfalso. apply O. intros _ n n' s s' J J' T T'. each_in; simpl in J; each_pair; discriminate T.
Qed.
Print Assumptions C73_crash_refuted.
