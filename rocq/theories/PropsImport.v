(** C59-C63: a model written as an OpenAPI document and read back, and OpenAPI documents in general. *)
From Coq Require Import Permutation.
From Verif Require Import GoStr Outcome Value Schema Scalars Model SpecModel ModelFacts ValidateFacts SpecPV PVFacts Misc MiscFacts SpecMisc SpecGen
  OpenApi OpenApiImport SpecOpenApi OpenApiFacts OpenApiTotal SpecImport ImportFacts ImportRound ImportRead ImportData Demo PropsExport.

(** ** C59 *)
(** Every action comes back, once, in whatever order the maps of the document are met: the same name, resource,
    comment, tags, method, expected status and exceptions, the path with its query part written anew, the inputs
    in their order with the body last.  Missing: the actions outside [action_ok]; that a type of an input is
    kept, which is false for all but named types, Bool, Int32, Decimal, String and arrays of String. *)
Theorem C59_actions_partial : forall f64 sch m fuel doc name i doc', new_model sch = Ok m ->
  export_oas f64 m fuel = Ok doc -> (forall h, In h (sc_http sch) -> action_ok sch h) -> doc_alike doc doc' ->
  exists m', to_sadl name i doc' = Ok m' /\ exists hs, Permutation (sc_http sch) hs
  /\ Forall2 (fun h g => exists g0, action_back sch h g0 /\ http_alike g0 g) hs (sc_http (m_schema m')).
Proof. intros f64 sch m fuel doc name i doc' Hm. exact (actions_back f64 sch m Hm fuel doc name i doc'). Qed.
Print Assumptions C59_actions_partial.
Lemma perm2_refl {A} (R : A -> A -> Prop) (l : list A) : (forall x, In x l -> R x x) -> perm2 R l l.
Proof.
  intros H. exists l. split; [apply Permutation_refl|]. induction l as [|x l IH]; constructor; [apply H; left; reflexivity|]. apply IH. intros y I. apply H. right. exact I.
Qed.
Lemma pairs_of_two {A} (R : A -> A -> Prop) x y : R x y -> forall a p b q c, [x; y] = a ++ p :: b ++ q :: c -> R p q.
Proof.
  intros H a p b q c E. destruct a as [|x' a]; [|destruct a as [|y' a]].
  - injection E as <- E. destruct b as [|z b]; [injection E as <- E; auto|injection E as <- E; destruct b; discriminate].
  - injection E as <- <- E. destruct b; discriminate.
  - injection E as <- <- E. destruct a; discriminate.
Qed.
Lemma pairs_of_one {A} (R : A -> A -> Prop) x : forall a p b q c, [x] = a ++ p :: b ++ q :: c -> R p q.
Proof. intros a p b q c E. destruct a as [|y a]; [injection E as <- E; destruct b; discriminate|injection E as <- E; destruct a; discriminate]. Qed.
Lemma one_of_two (P : paramspec -> Prop) x y : (P x -> ~ P y) -> at_most_one P [x; y].
Proof. intros H a p b q c E. exact (pairs_of_two (fun p q => P p -> ~ P q) x y H a p b q c E). Qed.
Lemma one_of_one (P : paramspec -> Prop) x : at_most_one P [x].
Proof. intros a p b q c E. exact (pairs_of_one (fun p q => P p -> ~ P q) x a p b q c E). Qed.
Lemma none_at_all (P : paramspec -> Prop) l : (forall p, In p l -> ~ P p) -> at_most_one P l.
Proof. intros H a p b q c -> Pp. exfalso. apply (H p); [apply in_or_app; right; left; reflexivity|exact Pp]. Qed.
Ltac not_listed := let H := fresh in intros H; simpl in H; repeat (destruct H as [H|H]; [discriminate H|]); exact H.
Example C59_actions_partial_case : new_model oas_demo = Ok (model_of oas_demo)
  /\ (forall h, In h (sc_http oas_demo) -> action_ok oas_demo h)
  /\ exists doc m', export_oas same (model_of oas_demo) 5 = Ok doc /\ to_sadl "demo" (export_info oas_demo) doc = Ok m'
     /\ map h_path (sc_http (m_schema m')) = ["/points/{id}?c={c}"; "/points/{id}"].
Proof.
  split; [reflexivity|]. split; [|eexists _, _; split; [vm_compute; reflexivity|split; [vm_compute; reflexivity|reflexivity]]].
  assert (PT : declared oas_demo "Point") by (apply demo_declared; exists 1; reflexivity).
  intros h [<-|[<-|[]]]; (split; [simpl; tauto|]); (split; [eexists _, _; split; [apply cut_query_part|reflexivity]|]);
    (split; [constructor|]); (split; [intros t []|]).
  - split. { intros i [<-|[<-|[<-|[]]]] _; eexists; [apply it_text; simpl; tauto|apply it_named; [discriminate|not_listed]|apply it_text; simpl; tauto]. }
    split. { intros i [<-|[<-|[<-|[]]]] Q; try discriminate. apply in_path_iff. reflexivity. }
    assert (NB : forall p, In p (h_inputs (act "getPoint" "GET" "/points/{id}?c={color}" [par "id" true "" "" "String"; par "color" false "c" "" "Color"; par "etag" false "" "X-Etag" "String"]
        [par "etag" false "" "Etag" "String"; par "point" false "" "" "Point"] [mkExc "Oops" 404 "" []])) -> ~ is_body p).
    { intros p [<-|[<-|[<-|[]]]] (A & B & C); discriminate. }
    split. { intros i I B. exfalso. exact (NB i I B). }
    split. { apply none_at_all. exact NB. }
    split. { eexists. split; [reflexivity|]. split; [simpl; lia|]. split; [intros o [<-|[<-|[]]]; [left; simpl; tauto|right; left; split; [exact PT|discriminate]]|].
      split; [apply one_of_two; intros A; discriminate|]. refine (pairs_of_two (fun p q => ps_header p <> "" -> ps_header q <> ps_header p) _ _ _). intros _. discriminate. }
    split; [constructor; [intros []|constructor]|]. intros x [<-|[]]. simpl. lia.
  - split. { intros i [<-|[<-|[]]] B; [eexists; apply it_text; simpl; tauto|exfalso; apply B; repeat split]. }
    split. { intros i [<-|[<-|[]]] Q; try discriminate. apply in_path_iff. reflexivity. }
    split. { intros i [<-|[<-|[]]] (A & _); [discriminate|]. split; [simpl; tauto|]. split; [discriminate|not_listed]. }
    split. { apply one_of_two. intros (A & _). discriminate. }
    split. { eexists. split; [reflexivity|]. split; [simpl; lia|]. split; [intros o [<-|[]]; right; left; split; [exact PT|discriminate]|].
      split; [apply one_of_one|]. intros a p b q c E. exact (pairs_of_one (fun p q => ps_header p <> "" -> ps_header q <> ps_header p) _ a p b q c E). }
    split; [constructor|]. intros x [].
Qed.
(** What the importer cannot take although the exporter wrote it: a path parameter with a digit in its name and an
    enum written in an input end in a panic; the type of a query parameter is not kept; the body of a DELETE and
    a body of a base type are lost. *)
Definition read_back (sch : schema) : result unit (list httpdef) :=
  match export_oas same (model_of sch) 5 with
  | Ok doc => match to_sadl "x" (export_info sch) doc with Ok m => Ok (sc_http (m_schema m)) | Err e => Err e | Panic => Panic | OutOfFuel => OutOfFuel end
  | _ => Err tt
  end.
Definition spec_par (n : string) (q : string) (ts : typespec) : paramspec := mkParam "" q false (fld n false ts).
Theorem C59_actions_refuted : exists path_digit inline_enum number delete_body plain_body,
  Forall (fun s => collision_free s /\ exists h, sc_http s = [h] /\ h_expected h = Some (mkExp [] 200 "" [])) [path_digit; inline_enum; number; delete_body; plain_body]
  /\ read_back path_digit = Panic /\ read_back inline_enum = Panic
  /\ (exists h p q, sc_http number = [h] /\ h_inputs h = [p] /\ ts_type (fd_spec (ps_field p)) = "Int64"
      /\ exists g, read_back number = Ok [g] /\ h_inputs g = [q] /\ ts_type (fd_spec (ps_field q)) = "Int32")
  /\ (exists h p, sc_http delete_body = [h] /\ h_inputs h = [p] /\ exists g, read_back delete_body = Ok [g] /\ h_inputs g = [])
  /\ (exists h p, sc_http plain_body = [h] /\ h_inputs h = [p] /\ exists g, read_back plain_body = Ok [g] /\ h_inputs g = []).
Proof.
  exists (schema_of [] [act "a" "GET" "/a/{id2}" [par "id2" true "" "" "String"] [] []]),
    (schema_of [] [act "a" "GET" "/a?c={c}" [spec_par "c" "c" (ts_enum ["x"])] [] []]),
    (schema_of [] [act "a" "GET" "/a?n={n}" [par "n" false "n" "" "Int64"] [] []]),
    (schema_of [tdef "S" (ts_struct [])] [act "a" "DELETE" "/a" [par "s" false "" "" "S"] [] []]),
    (schema_of [] [act "a" "PUT" "/a" [par "s" false "" "" "String"] [] []]).
  split. { repeat (apply Forall_cons; [split; [eapply (proj2 (proj2 (new_model_iff _))); vm_compute; reflexivity|eexists; split; reflexivity]|]). constructor. }
  split; [reflexivity|]. split; [reflexivity|]. split; [eexists _, _, _; repeat split; eexists; repeat split; vm_compute; reflexivity|].
  split; eexists _, _; repeat split; eexists; split; vm_compute; reflexivity.
Qed.
Print Assumptions C59_actions_refuted.

(** ** C60 *)
(** The same document gives the same model up to the order of its definitions, in whatever order the maps are met,
    when no operation has two responses that stand for success. *)
Theorem C60_order_partial : forall name i doc doc' m, doc_maps doc -> doc_one_success doc -> doc_alike doc doc' ->
  to_sadl name i doc = Ok m -> exists m', to_sadl name i doc' = Ok m' /\ schema_alike (m_schema m) (m_schema m').
Proof. exact to_sadl_alike. Qed.
Print Assumptions C60_order_partial.
Definition oas_text : oas := oas_simple "string" "" "".
Definition answer (d : string) (b : option oas) : oresponse := mkOResp d [] b.
Definition two_doc (flip : bool) : oasdoc :=
  let ss := [("Color", oas_simple "string" "" "x"); ("Point", oas_object "" (if flip then [("y", oas_ref "Color"); ("x", oas_text)] else [("x", oas_text); ("y", oas_ref "Color")]) ["x"])] in
  let rs := [("200", answer "ok" (Some (oas_ref "Point"))); ("404", answer "no" (Some (oas_ref "Color")))] in
  mkDoc (if flip then rev ss else ss) [("/a", [("GET", mkOOp "getA" "" [] [] None (if flip then rev rs else rs) true)])].
Example C60_order_partial_case : doc_maps (two_doc false) /\ doc_one_success (two_doc false) /\ doc_alike (two_doc false) (two_doc true)
  /\ exists m, to_sadl "n" (export_info oas_demo) (two_doc false) = Ok m.
Proof.
  assert (TX : oas_alike oas_text oas_text) by (apply oa_mk; constructor).
  assert (RF : forall n, oas_alike (oas_ref n) (oas_ref n)) by (intros n; apply oa_mk; constructor).
  split; [|split; [|split]].
  - split; [repeat constructor; simpl; intuition discriminate|]. intros t pi [Q|[]]. injection Q as <- <-. split; [repeat constructor; simpl; intuition discriminate|].
    intros mth op [Q|[]]. injection Q as <- <-. repeat constructor; simpl; intuition discriminate.
  - intros p mth op (pi & I & J). destruct I as [Q|[]]. injection Q as <- <-. destruct J as [Q|[]]. injection Q as <- <-. intros k k' [<-|[<-|[]]] [<-|[<-|[]]] (r & [Q|Q]) (r' & [Q'|Q']); first [discriminate|reflexivity].
  - split.
    + exists (rev (od_schemas (two_doc false))). split; [apply Permutation_rev|]. cbn. constructor; [|constructor; [|constructor]]; (split; [reflexivity|]); cbn [snd].
      * apply oa_mk; constructor. exists [("y", oas_ref "Color"); ("x", oas_text)]. split; [apply perm_swap|]. constructor; [split; [reflexivity|apply RF]|]. constructor; [split; [reflexivity|exact TX]|constructor].
      * apply oa_mk; constructor.
    + apply (ex_intro _ (od_paths (two_doc false))). split; [apply Permutation_refl|]. constructor; [|constructor]. split; [reflexivity|]. eexists. split; [apply Permutation_refl|]. constructor; [|constructor]. split; [reflexivity|].
      cbn [snd]. repeat split; try constructor. cbn. eexists. split; [apply perm_swap|]. constructor; [|constructor; [|constructor]]; (split; [reflexivity|]); (split; [reflexivity|]); cbn; (split; [constructor; apply RF|]); exists []; split; constructor.
  - eexists. vm_compute. reflexivity.
Qed.
(** With two such responses, here the expected 200 and an exception 304, the order decides which is expected. *)
Theorem C60_order_refuted : exists sch doc doc' m m' h h', collision_free sch
  /\ (forall f64, export_oas f64 (model_of sch) 5 = Ok doc) /\ doc_maps doc /\ doc_alike doc doc'
  /\ to_sadl "n" (export_info sch) doc = Ok m /\ to_sadl "n" (export_info sch) doc' = Ok m'
  /\ sc_http (m_schema m) = [h] /\ sc_http (m_schema m') = [h']
  /\ option_map xp_status (h_expected h) = Some 200%Z /\ option_map xp_status (h_expected h') = Some 304%Z.
Proof.
  set (sch := schema_of [tdef "S" (ts_struct [])] [act "a" "GET" "/a" [] [] [mkExc "S" 304 "" []]]).
  set (rs := [("200", answer "Expected response" None); ("304", answer "Exceptional response" (Some (oas_ref "S")))]).
  set (d := fun rs => mkDoc [("S", oas_object "" [] [])] [("/a", [("GET", mkOOp "a" "" [] [] None rs true)])]).
  exists sch, (d rs), (d (rev rs)). eexists _, _, _, _.
  split; [eapply (proj2 (proj2 (new_model_iff _))); vm_compute; reflexivity|].
  split; [intros f64; reflexivity|].
  split. { split; [repeat constructor; simpl; intuition discriminate|]. intros t pi [Q|[]]. injection Q as <- <-. split; [repeat constructor; simpl; intuition discriminate|].
    intros mth op [Q|[]]. injection Q as <- <-. repeat constructor; simpl; intuition discriminate. }
  split. { split.
    - eexists. split; [apply Permutation_refl|]. constructor; [|constructor]. split; [reflexivity|]. apply oa_mk; constructor. exists []. split; constructor.
    - eexists. split; [apply Permutation_refl|]. constructor; [|constructor]. split; [reflexivity|]. eexists. split; [apply Permutation_refl|]. constructor; [|constructor]. split; [reflexivity|].
      cbn [snd]. repeat split; try constructor. cbn. eexists. split; [apply perm_swap|]. constructor; [|constructor; [|constructor]]; (split; [reflexivity|]); (split; [reflexivity|]); cbn; (split; [try constructor; try (apply oa_mk; constructor)|]); exists []; split; constructor. }
  repeat (split; [vm_compute; reflexivity|]). vm_compute. reflexivity.
Qed.
Print Assumptions C60_order_refuted.

(** ** C61 *)
(** Exactly the documents that become a model. *)
Theorem C61_readable_exact : forall name i doc, keys_once (od_paths doc) -> doc_maps doc -> doc_one_success doc ->
  ((exists m, to_sadl name i doc = Ok m) <-> doc_readable doc).
Proof. exact readable_iff. Qed.
Print Assumptions C61_readable_exact.
Example C61_readable_exact_case : keys_once (od_paths (two_doc false)) /\ doc_maps (two_doc false) /\ doc_one_success (two_doc false) /\ doc_readable (two_doc false).
Proof.
  assert (KO : keys_once (od_paths (two_doc false))) by (repeat constructor; simpl; intuition discriminate).
  split; [exact KO|]. split; [apply C60_order_partial_case|]. split; [apply C60_order_partial_case|].
  apply (C61_readable_exact "n" (export_info oas_demo)); [exact KO|apply C60_order_partial_case|apply C60_order_partial_case|]. eexists. vm_compute. reflexivity.
Qed.
(** The others do not all end in an error: an answer for a range of statuses, a parameter without type, a type
    named again that is not there. *)
Theorem C61_no_panic_refuted : forall name i, exists range untyped missing,
  (exists k r op, od_paths range = [("/a", [("GET", op)])] /\ In (k, r) (oo_responses op) /\ k = "4XX")
  /\ (exists p op, od_paths untyped = [("/a", [("GET", op)])] /\ oo_params op = [p] /\ o_type (op_schema p) = "" /\ o_ref (op_schema p) = "")
  /\ od_schemas missing = [("S", oas_ref "T")]
  /\ to_sadl name i range = Panic /\ to_sadl name i untyped = Panic /\ to_sadl name i missing = Panic.
Proof.
  intros name i. exists (mkDoc [] [("/a", [("GET", mkOOp "a" "" [] [] None [("200", answer "" None); ("4XX", answer "" None)] true)])]),
    (mkDoc [] [("/a", [("GET", mkOOp "a" "" [] [mkOParam "query" "q" false "" (oas_simple "" "" "")] None [("200", answer "" None)] true)])]),
    (mkDoc [("S", oas_ref "T")] []).
  split; [eexists _, _, _; split; [reflexivity|split; [right; left; reflexivity|reflexivity]]|]. split; [eexists _, _; repeat split; reflexivity|]. split; [reflexivity|].
  split; [reflexivity|]. split; reflexivity.
Qed.
Print Assumptions C61_no_panic_refuted.

(** ** C62 *)
(** Name, comment, version, server and licence after writing and reading; missing: the namespace, the base path and
    the other annotations, which are lost. *)
Theorem C62_head_partial : forall name sch doc m', NoDup (map fst (sc_annos sch)) -> to_sadl name (export_info sch) doc = Ok m' ->
  head_back name sch (m_schema m').
Proof. exact head_kept. Qed.
Print Assumptions C62_head_partial.
Definition head_demo : schema := mkSchema "" "pets" "com.example" "1.2" "All pets" [] [] [] [] "/v1"
  [("x_license_name", "MIT"); ("x_server", "https://pets.example"); ("x_mine", "1")].
Example C62_head_partial_case : NoDup (map fst (sc_annos head_demo)) /\ exists m', to_sadl "n" (export_info head_demo) (two_doc false) = Ok m'
  /\ sc_annos (m_schema m') = [("x_openapi_version", "3.0.0"); ("x_server", "https://pets.example"); ("x_license_name", "MIT")].
Proof. split; [repeat constructor; simpl; intuition discriminate|]. eexists. split; vm_compute; reflexivity. Qed.
Theorem C62_head_refuted : exists sch m doc m', new_model sch = Ok m /\ export_oas same m 3 = Ok doc /\ to_sadl "n" (export_info sch) doc = Ok m'
  /\ sc_namespace sch = "com.example" /\ sc_namespace (m_schema m') = "" /\ sc_base sch = "/v1" /\ sc_base (m_schema m') = ""
  /\ In ("x_mine", "1") (sc_annos sch) /\ ~ In "x_mine" (map fst (sc_annos (m_schema m'))).
Proof.
  exists head_demo, (model_of head_demo). eexists _, _. split; [reflexivity|]. split; [vm_compute; reflexivity|]. split; [vm_compute; reflexivity|].
  repeat (split; [vm_compute; reflexivity|]). split; [simpl; tauto|]. simpl. intuition discriminate.
Qed.
Print Assumptions C62_head_refuted.

(** ** C63 *)
(** Validation against a type gives the same verdict before and after, for all data, for types built from the
    constructs in [data_def]: every number type, strings with patterns, sizes and values, enums, structs nested
    and recursive, arrays without sizes.  Missing: maps, unions, units, Bytes, UUID fields, sized arrays and
    values written in a field, where it is false (next theorem). *)
Theorem C63_data_partial : forall f64 sch m fuel doc name i doc' m' K, new_model sch = Ok m -> export_oas f64 m fuel = Ok doc ->
  doc_alike doc doc' -> to_sadl name i doc' = Ok m' -> data_types f64 sch K ->
  forall X ctx ctx' n v, K n -> vwf v ->
  ((exists k, validate X m k ctx n v = Ok tt) <-> (exists k, validate X m' k ctx' n v = Ok tt)).
Proof. intros f64 sch m fuel doc name i doc' m' K Hm E A T D. exact (verdict_back f64 sch m Hm K D fuel doc name i doc' m' E A T). Qed.
Print Assumptions C63_data_partial.
Definition data_demo : schema := schema_of
  [ tdef "Color" (ts_enum ["red"; "green"]);
    tdef "Size" (ts_str "" (Some ["small"; "large"]));
    tdef "Coord" (ts_num "Int64" (Some (DFin 0 0)) (Some (DFin 10 0)));
    tdef "Name" (mkTS "String" "" None (Some 0%Z) (Some 5%Z) [] [] None None "" "" [] "" "" "");
    tdef "Points" (ts_array "Point" None None);
    tdef "Point" (ts_struct [fld "x" true (ts_of "Coord"); fld "color" false (ts_of "Color"); fld "at" true (ts_of "Timestamp"); fld "near" false (ts_of "Points");
      fld "name" false (ts_of "Name"); fld "size" false (ts_of "Size"); fld "ids" false (ts_array "Int64" None None)]) ] [].
Example C63_data_partial_case : exists doc m', new_model data_demo = Ok (model_of data_demo) /\ export_oas same (model_of data_demo) 5 = Ok doc
  /\ to_sadl "n" (export_info data_demo) doc = Ok m' /\ data_types same data_demo (fun n => declared data_demo n)
  /\ option_map (fun td => ts_type (td_spec td)) (find_type m' "Size") = Some "Enum".
Proof.
  eexists _, _. split; [reflexivity|]. split; [vm_compute; reflexivity|]. split; [vm_compute; reflexivity|]. split; [|reflexivity].
  assert (DC : forall i, match nth_error (sc_types data_demo) i with Some td => declared data_demo (td_name td) /\ defines data_demo (td_name td) (td_spec td) | None => True end).
  { intros i. destruct (nth_error (sc_types data_demo) i) as [td|] eqn:E; [|exact Logic.I]. apply nth_error_In in E. split; [exists td; auto|]. exists td. split; [right; auto|reflexivity]. }
  intros n (td & I & E). split; [subst n; simpl in I; intuition (subst; discriminate)|]. exists td. split; [exact I|]. split; [exact E|]. clear E n.
  destruct I as [<-|[<-|[<-|[<-|[<-|[<-|[]]]]]]].
  - apply dd_enum; [reflexivity|]. repeat apply Forall_cons; try apply Forall_nil; apply is_symbol_iff; reflexivity.
  - eapply dd_symbols; [reflexivity|reflexivity| |split; reflexivity]. repeat apply Forall_cons; try apply Forall_nil; apply is_symbol_iff; reflexivity.
  - apply dd_number; [simpl; tauto|]. intros d _. reflexivity.
  - apply dd_string; [reflexivity|reflexivity|]. intros z [Q|Q]; injection Q as <-; lia.
  - apply dd_array; [reflexivity|split; reflexivity|]. right. split; [exact (proj1 (DC 5))|]. eexists. split; [exact (proj2 (DC 5))|left; reflexivity].
  - apply dd_struct; [reflexivity|repeat constructor; simpl; intuition discriminate|]. intros f [<-|[<-|[<-|[<-|[<-|[<-|[<-|[]]]]]]]].
    + apply df_named. exact (proj1 (DC 2)).
    + apply df_named. exact (proj1 (DC 0)).
    + apply df_plain. simpl. tauto.
    + apply df_named. exact (proj1 (DC 4)).
    + apply df_named. exact (proj1 (DC 3)).
    + apply df_named. exact (proj1 (DC 1)).
    + apply df_array; [reflexivity|split; reflexivity|]. left. simpl. tauto.
Qed.
(** A map comes back as a struct without fields, a sized array without its sizes, a UUID in a field as a string,
    the values of a field are lost. *)
Theorem C63_data_refuted : forall f64 X ctx, exists sch m doc m', new_model sch = Ok m /\ export_oas f64 m 5 = Ok doc /\ to_sadl "n" (export_info sch) doc = Ok m'
  /\ (exists v, vwf v /\ validate X m 5 ctx "M" v = Ok tt /\ exists e, validate X m' 5 ctx "M" v = Err e)
  /\ (exists v, vwf v /\ (exists e, validate X m 5 ctx "A" v = Err e) /\ validate X m' 5 ctx "A" v = Ok tt)
  /\ (exists v, vwf v /\ (exists e, validate X m 5 ctx "S" v = Err e) /\ validate X m' 5 ctx "S" v = Ok tt)
  /\ (exists v, vwf v /\ (exists e, validate X m 5 ctx "T" v = Err e) /\ validate X m' 5 ctx "T" v = Ok tt).
Proof.
  intros f64 X ctx. set (sch := schema_of [tdef "M" (ts_map "String" "Bool"); tdef "A" (ts_array "Bool" None (Some 1%Z)); tdef "S" (ts_struct [fld "id" true (ts_of "UUID")]);
    tdef "T" (ts_struct [fld "t" true (ts_str "" (Some ["a"; "b"]))])] []).
  exists sch, (model_of sch). eexists _, _. split; [reflexivity|]. split; [vm_compute; reflexivity|]. split; [vm_compute; reflexivity|].
  assert (W : forall k x, vwf x -> vwf (VMap [(k, x)])). { intros k x H. apply wf_map; [constructor; [intros []|constructor]|]. constructor; [exact H|constructor]. }
  split; [exists (VMap [("a", VBool true)]); split; [apply W; apply wf_leaf; discriminate|split; [reflexivity|eexists; reflexivity]]|].
  split; [exists (VArr [VBool true; VBool true]); split; [apply wf_arr; repeat constructor; discriminate|split; [eexists; reflexivity|reflexivity]]|].
  split; [exists (VMap [("id", VStr "a")]); split; [apply W; apply wf_leaf; discriminate|split; [eexists; reflexivity|reflexivity]]|].
  exists (VMap [("t", VStr "c")]). split; [apply W; apply wf_leaf; discriminate|split; [eexists; reflexivity|reflexivity]].
Qed.
Print Assumptions C63_data_refuted.
