(** C36, C41-C44, C48, C50-C52: the generators. *)
From Verif Require Import GoStr Outcome Value Schema Scalars Model Misc SpecMisc SpecModel SpecPV PVFacts ModelFacts MiscFacts
  Generator HttpTrace Java Golang Smithy SpecGen GenFacts GoFacts SmithyFacts Demo.

(** ** C36 *)
(** Without force-overwrite, whatever the generator does and whatever the operating system answers, a file
    that exists keeps its content. *)
Theorem C36_no_overwrite : forall calls g path content,
  g_fs g path = Some content -> g_fs (grun false calls g) path = Some content.
Proof. exact run_keeps. Qed.
Print Assumptions C36_no_overwrite.
Definition fine : io := mkIO false true 64 false.
Definition one_file : files := fun p => if p =?s "a.go" then Some "mine" else None.
Example C36_no_overwrite_case :
  let calls := [GBegin; GEmit "x"; GFlush "a.go" "head " fine; GFlush "b.go" "head " fine] in
  let g := mkGen false None one_file in
  g_fs (grun false calls g) "a.go" = Some "mine" /\ g_fs (grun false calls g) "b.go" = Some "head x"
  /\ g_fs (grun true calls g) "a.go" = Some "head x".
Proof. repeat split. Qed.
(** Files that no call names are never touched. *)
Theorem C36_other_files : forall force calls g path,
  (forall c, In c calls -> ~ writes_to c path) -> g_fs (grun force calls g) path = g_fs g path.
Proof. intros. apply run_frame. assumption. Qed.
Print Assumptions C36_other_files.
Example C36_other_files_case : forall c, In c [GBegin; GFlush "a.go" "" fine] -> ~ writes_to c "b.go".
Proof. intros c [<-|[<-|[]]]; simpl; [tauto|discriminate]. Qed.
(** After an error nothing is written any more, as long as every write goes through the guarded writers
    (WriteGoFile, WriteJavaFile); missing: a direct call of WriteFile, see the next theorem. *)
Theorem C36_stops_after_error_partial : forall force before after g,
  g_err (grun force before g) = true -> (forall p t i, ~ In (GWrite p t i) after) ->
  grun force (before ++ after) g = grun force before g.
Proof.
  intros force before after g H N. unfold grun. rewrite fold_left_app. apply (run_stops force after (grun force before g) H N).
Qed.
Print Assumptions C36_stops_after_error_partial.
Example C36_stops_after_error_partial_case :
  let before := [GBegin; GFlush "a.go" "" (mkIO false false 0 false)] in
  let after := [GFlush "b.go" "" fine] in
  g_err (grun false before (mkGen false None (fun _ => None))) = true /\ (forall p t i, ~ In (GWrite p t i) after).
Proof. split; [reflexivity|]. intros p t i [H|[]]. discriminate. Qed.
(** WriteFile itself does not look at the error: a second file is created after the first failed, and the
    error is forgotten. *)
Theorem C36_stops_after_error_refuted : exists calls g,
  g_err (grun false (firstn 1 calls) g) = true
  /\ g_fs (grun false (firstn 1 calls) g) "b.go" = None
  /\ g_fs (grun false calls g) "b.go" = Some "text"
  /\ g_err (grun false calls g) = false.
Proof.
  exists [GWrite "a.go" "text" (mkIO false false 0 false); GWrite "b.go" "text" fine], (mkGen false None (fun _ => None)).
  repeat split.
Qed.
Print Assumptions C36_stops_after_error_refuted.

(** ** C50 *)
(** If the operating system has room for it, a file written without an error has exactly the content given. *)
Theorem C50_content_partial : forall force path content i g,
  g_err g = false -> io_stat i = false -> io_open i = true -> String.length content <= io_room i ->
  (force = true \/ g_fs g path = None) ->
  let g' := write_guarded force path content i g in g_err g' = false /\ g_fs g' path = Some content.
Proof. exact write_content. Qed.
Print Assumptions C50_content_partial.
Example C50_content_partial_case :
  g_fs (write_guarded false "b.go" "text" fine (mkGen false None one_file)) "b.go" = Some "text".
Proof. reflexivity. Qed.
(** The result of Flush is ignored: a truncated file and no error. *)
Theorem C50_content_refuted : exists path content i g,
  g_err g = false /\ g_fs g path = None
  /\ let g' := write_guarded false path content i g in
     g_err g' = false /\ g_fs g' path = Some "te" /\ content = "text".
Proof.
  exists "a.go", "text", (mkIO false true 2 true), (mkGen false None (fun _ => None)). repeat split.
Qed.
Print Assumptions C50_content_refuted.
(** An existing file that may not be overwritten is silently left, and no error reported. *)
Theorem C50_existing_refuted : exists path content i g,
  let g' := write_guarded false path content i g in
  g_err g' = false /\ io_stat i = false /\ io_open i = true /\ String.length content <= io_room i
  /\ g_fs g' path <> Some content.
Proof.
  exists "a.go", "text", fine, (mkGen false None one_file). simpl. repeat split; [lia|discriminate].
Qed.
Print Assumptions C50_existing_refuted.

(** ** C51 *)
(** End returns the texts emitted since Begin, in order; nothing is lost and nothing else is in it. *)
Theorem C51_emit_end : forall force texts g, g_err g = false ->
  end_ (grun force (GBegin :: map GEmit texts) g) = String.concat "" texts.
Proof. exact begin_emit_end. Qed.
Print Assumptions C51_emit_end.
Example C51_emit_end_case :
  end_ (grun false (GBegin :: map GEmit ["a"; "b"; "c"]) (mkGen false (Some "old") one_file)) = "abc".
Proof. reflexivity. Qed.

(** ** C43 *)
(** Items whose value does not itself end in an equals sign: exactly those without a value are dropped; path
    and order stay.  Missing: values that end in an equals sign, see the refutation. *)
Theorem C43_strips_empty_partial : forall uri path items, target uri path items ->
  (forall x, In x items -> exists v, has_value x v /\ ~ (exists w, v = w +++ "=")) ->
  exists kept, without (fun x => has_value x "") items kept /\ target (strip_missing uri) path kept.
Proof. exact strip_exact. Qed.
Print Assumptions C43_strips_empty_partial.
Example C43_strips_empty_partial_case :
  target "/a?x=1&y=&z=3" "/a" ["x=1"; "y="; "z=3"] /\ strip_missing "/a?x=1&y=&z=3" = "/a?x=1&z=3"
  /\ strip_missing "/a?y=" = "/a".
Proof.
  split; [|split; reflexivity]. apply (tg_query "/a" "x=1" ["y="; "z=3"]); [apply no_char_smem; reflexivity|].
  intros x Hx. apply no_char_smem. repeat (destruct Hx as [<-|Hx]; [reflexivity|]). destruct Hx.
Qed.
(** For every target: exactly the items that end in an equals sign are dropped. *)
Theorem C43_strips_exactly : forall uri path items, target uri path items ->
  exists kept, without (fun x => exists b, x = b +++ "=") items kept /\ target (strip_missing uri) path kept.
Proof. exact strip_target. Qed.
Print Assumptions C43_strips_exactly.
(** what is kept is determined *)
Theorem C43_kept_unique : forall (P : string -> Prop) items k1 k2, without P items k1 -> without P items k2 -> k1 = k2.
Proof. intros P items k1 k2 H1 H2. exact (without_unique P items k1 H1 k2 H2). Qed.
Print Assumptions C43_kept_unique.
Example C43_kept_case : without (fun x => x = "y=") ["x=1"; "y="; "z=3"] ["x=1"; "z=3"].
Proof. repeat (first [apply wo_nil | apply wo_drop; [reflexivity|] | apply wo_keep; [discriminate|]]). Qed.
(** A parameter with a value is dropped: base64 text often ends in an equals sign. *)
Theorem C43_strips_empty_refuted : exists uri path item v,
  target uri path [item] /\ has_value item v /\ v <> "" /\ strip_missing uri = path.
Proof.
  exists "/a?token=YQ==", "/a", "token=YQ==", "YQ==". split; [|split; [|split; [discriminate|reflexivity]]].
  - apply (tg_query "/a" "token=YQ==" []); [apply no_char_smem; reflexivity|].
    intros x [<-|[]]. apply no_char_smem. reflexivity.
  - exists "token". split; [apply no_char_smem; reflexivity|reflexivity].
Qed.
Print Assumptions C43_strips_empty_refuted.

(** ** C44 *)
Theorem C44_client : forall status, http_error_category status = "client" <-> (400 <= status <= 499)%Z.
Proof.
  intros s. unfold http_error_category. destruct (Z.ltb_spec s 200); [split; [discriminate|lia]|].
  destruct (Z.ltb_spec s 300); [split; [discriminate|lia]|]. destruct (Z.ltb_spec s 400); [split; [discriminate|lia]|].
  destruct (Z.leb_spec 500 s); [split; [discriminate|lia]|]. split; [lia|reflexivity].
Qed.
Print Assumptions C44_client.
(** Missing: statuses above 599 are called server too. *)
Theorem C44_server_partial : forall status, (status <= 599)%Z ->
  (http_error_category status = "server" <-> (500 <= status <= 599)%Z).
Proof.
  intros s L. unfold http_error_category. destruct (Z.ltb_spec s 200); [split; [discriminate|lia]|].
  destruct (Z.ltb_spec s 300); [split; [discriminate|lia]|]. destruct (Z.ltb_spec s 400); [split; [discriminate|lia]|].
  destruct (Z.leb_spec 500 s); [split; [lia|reflexivity]|]. split; [discriminate|lia].
Qed.
Print Assumptions C44_server_partial.
Example C44_cases : http_error_category 404 = "client" /\ http_error_category 503 = "server" /\ http_error_category 302 = "redirect".
Proof. repeat split. Qed.
Theorem C44_server_refuted : exists status, (0 <= status < 2147483648)%Z /\ ~ (500 <= status <= 599)%Z /\ http_error_category status = "server".
Proof. exists 600%Z. split; [lia|]. split; [lia|reflexivity]. Qed.
Print Assumptions C44_server_refuted.

(** ** C41 *)
Theorem C41_namespace : forall ns n, no_char "#" ns -> no_char "#" n -> strip_namespace (ensure_namespaced ns n) = n.
Proof. exact namespaced_strip. Qed.
Print Assumptions C41_namespace.
Example C41_namespace_case : ensure_namespaced "example" "Point" = "example#Point" /\ no_char "#" "example" /\ no_char "#" "Point".
Proof. split; [reflexivity|]. split; apply no_char_smem; reflexivity. Qed.
Theorem C41_namespace_once : forall ns ns' n, ensure_namespaced ns' (ensure_namespaced ns n) = ensure_namespaced ns n.
Proof. exact namespaced_idem. Qed.
Print Assumptions C41_namespace_once.
(** A reference to a declared type, exported and imported, is that name.  Missing: the namespace smithy.api. *)
Theorem C41_user_types_partial : forall ns n, no_char "#" ns -> ns <> "smithy.api" -> no_char "#" n -> ~ In n builtin_names ->
  shape_to_type (type_reference ns n) = n.
Proof. intros ns n H1 H2 H3 H4. rewrite (reference_user ns n H4). apply user_back; assumption. Qed.
Print Assumptions C41_user_types_partial.
Example C41_user_types_partial_case : shape_to_type (type_reference "example" "Integer") = "Integer" /\ ~ In "Integer" builtin_names.
Proof. split; [reflexivity|]. intros H. simpl in H. repeat (destruct H as [H|H]; [discriminate|]). destruct H. Qed.
Theorem C41_user_types_refuted : exists ns n, no_char "#" ns /\ no_char "#" n /\ ~ In n builtin_names
  /\ shape_to_type (type_reference ns n) <> n.
Proof.
  exists "smithy.api", "Blob". split; [apply no_char_smem; reflexivity|]. split; [apply no_char_smem; reflexivity|].
  split; [|discriminate]. intros H. simpl in H. repeat (destruct H as [H|H]; [discriminate|]). destruct H.
Qed.
Print Assumptions C41_user_types_refuted.
(** The scalar types other than UUID come back. *)
Theorem C41_scalars_partial : forall ns n,
  In n ["Bool"; "Int8"; "Int16"; "Int32"; "Int64"; "Float32"; "Float64"; "Decimal"; "Bytes"; "String"; "Timestamp"] ->
  shape_to_type (type_reference ns n) = n.
Proof. intros ns n H. simpl in H. repeat (destruct H as [<-|H]; [reflexivity|]). destruct H. Qed.
Print Assumptions C41_scalars_partial.
Example C41_scalars_case : type_reference "example" "Int64" = "smithy.api#Long".
Proof. reflexivity. Qed.
Theorem C41_scalars_refuted : forall ns, shape_to_type (type_reference ns "UUID") = "String".
Proof. reflexivity. Qed.
Print Assumptions C41_scalars_refuted.
(** A union variant takes the other way (EnsureNamespaced on the bare name): a declared type that is named
    like a Smithy type becomes that Smithy type. *)
Theorem C41_variants_refuted : exists ns n, no_char "#" ns /\ no_char "#" n /\ ~ In n builtin_names
  /\ shape_to_type (ensure_namespaced ns n) <> n.
Proof.
  exists "example", "Integer". split; [apply no_char_smem; reflexivity|]. split; [apply no_char_smem; reflexivity|].
  split; [|discriminate]. intros H. simpl in H. repeat (destruct H as [H|H]; [discriminate|]). destruct H.
Qed.
Print Assumptions C41_variants_refuted.

(** ** C48 *)
(** The import list of the k-th generated class: strictly ascending, hence without duplicates, and made of
    the imports requested for that class and for the classes before it.  Missing: "only those requested for
    that class". *)
Theorem C48_imports_partial : forall classes k imports, nth_error (pojos [] classes) k = Some imports ->
  ascending imports /\ NoDup imports
  /\ forall x, In x imports <-> exists j requests, j <= k /\ nth_error classes j = Some requests /\ In x requests.
Proof.
  intros classes k imports H. destruct (pojos_lists classes [] (NoDup_nil _) k imports H) as [A B].
  split; [exact A|]. split; [apply ascending_NoDup; exact A|]. intros x. rewrite B. simpl. tauto.
Qed.
Print Assumptions C48_imports_partial.
(** which determines the list *)
Theorem C48_imports_unique : forall l l', ascending l -> ascending l' -> (forall x, In x l <-> In x l') -> l = l'.
Proof. intros l l' H H'. exact (ascending_unique l H l' H'). Qed.
Print Assumptions C48_imports_unique.
Theorem C48_every_class : forall classes imports, length (pojos imports classes) = length classes.
Proof. exact pojos_length. Qed.
Print Assumptions C48_every_class.
Example C48_imports_case : pojos [] [["java.util.Map"; "java.util.List"; "java.util.Map"]; ["java.time.Instant"]]
  = [["java.util.List"; "java.util.Map"]; ["java.time.Instant"; "java.util.List"; "java.util.Map"]].
Proof. reflexivity. Qed.
Theorem C48_only_requested_refuted : exists classes k imports requests x,
  nth_error (pojos [] classes) k = Some imports /\ nth_error classes k = Some requests /\ In x imports /\ ~ In x requests.
Proof.
  exists [["java.util.List"]; []], 1, ["java.util.List"], [], "java.util.List". repeat split; [left; reflexivity|intros []].
Qed.
Print Assumptions C48_only_requested_refuted.
(** Reversing a domain into a package and back is the identity, for every text. *)
Theorem C48_package_back : forall domain, default_package (default_package domain) = domain.
Proof. exact default_package_involutive. Qed.
Print Assumptions C48_package_back.
(** and it does reverse the labels *)
Theorem C48_package_reversed : forall labels, labels <> [] -> (forall x, In x labels -> no_char "." x) ->
  default_package (join "." labels) = join "." (rev labels).
Proof. exact default_package_join. Qed.
Print Assumptions C48_package_reversed.
Theorem C48_package_path : forall labels, labels <> [] -> (forall x, In x labels -> no_char "." x) ->
  package_to_path (join "." labels) = join "/" labels.
Proof. exact package_path_join. Qed.
Print Assumptions C48_package_path.
Example C48_package_case : default_package "api.example.com" = "com.example.api" /\ package_to_path "com.example" = "com/example"
  /\ forall x, In x ["api"; "example"; "com"] -> no_char "." x.
Proof.
  split; [reflexivity|]. split; [reflexivity|]. intros x Hx. apply no_char_smem.
  repeat (destruct Hx as [<-|Hx]; [reflexivity|]). destruct Hx.
Qed.

(** ** C42 *)
(** In a model whose type names are identifiers and not Go's own lower-case names, two uses of types with the
    same Go type are uses of the same type (with the same items and keys). Missing: other names. *)
Theorem C42_go_names_partial : forall sch m runtime f1 f2 ts1 n1 ts2 n2 s, new_model sch = Ok m ->
  (forall td, In td (sc_types sch) -> identifier (td_name td)) ->
  (forall td, In td (sc_types sch) -> ~ In (td_name td) go_predeclared) ->
  native_type m runtime f1 ts1 n1 = Ok s -> native_type m runtime f2 ts2 n2 = Ok s ->
  n1 = n2 /\ (n1 = "Array" -> ts_items ts1 = ts_items ts2)
  /\ (n1 = "Map" -> ts_keys ts1 = ts_keys ts2 /\ ts_items ts1 = ts_items ts2).
Proof. intros sch m rt f1 f2 ts1 n1 ts2 n2 s Hm Hi Hl. apply (native_inj sch m Hm Hi Hl). Qed.
Print Assumptions C42_go_names_partial.
Definition go_types : list typedef :=
  [tdef "Point" (ts_of "Struct"); tdef "Color" (ts_of "Enum")].
Definition go_schema : schema := schema_of go_types [].
Definition go_model : model := match new_model go_schema with Ok m => m | _ => mkModel go_schema [] [] end.
Example C42_go_names_case : new_model go_schema = Ok go_model
  /\ native_type go_model false 2 (ts_array "Point" None None) "Array" = Ok "[]*Point"
  /\ native_type go_model true 2 (ts_map "Color" "Decimal") "Map" = Ok "map[Color]*sadl.Decimal"
  /\ (forall td, In td (sc_types go_schema) -> identifier (td_name td))
  /\ (forall td, In td (sc_types go_schema) -> ~ In (td_name td) go_predeclared).
Proof.
  split; [reflexivity|]. split; [reflexivity|]. split; [reflexivity|].
  split; intros td [<-|[<-|[]]]; first [apply is_symbol_iff; reflexivity | intros H; simpl in H; repeat (destruct H as [H|H]; [discriminate|]); destruct H].
Qed.
(** the bound on the nesting plays no part *)
Theorem C42_go_names_end : forall sch m runtime ts n, new_model sch = Ok m ->
  (forall td, In td (sc_types sch) -> identifier (td_name td)) ->
  (forall td, In td (sc_types sch) -> ~ In (td_name td) go_predeclared) ->
  native_type m runtime 2 ts n <> OutOfFuel.
Proof. intros sch m rt ts n Hm Hi Hl. apply (native_fuel sch m Hm Hi Hl). Qed.
Print Assumptions C42_go_names_end.
Definition go_clash : schema := schema_of [tdef "int32" (ts_of "String")] [].
Theorem C42_go_names_refuted : exists sch m runtime n1 n2 s, new_model sch = Ok m /\ n1 <> n2
  /\ native_type m runtime 2 (ts_of n1) n1 = Ok s /\ native_type m runtime 2 (ts_of n2) n2 = Ok s.
Proof.
  exists go_clash, (match new_model go_clash with Ok m => m | _ => mkModel go_clash [] [] end), false, "int32", "Int32", "int32".
  split; [reflexivity|]. split; [discriminate|]. split; reflexivity.
Qed.
Print Assumptions C42_go_names_refuted.
(** The names declared at package level are not distinct: two enums with a common symbol. *)
Theorem C42_declared_names_refuted : exists service sch m, new_model sch = Ok m
  /\ ~ NoDup (model_decls service sch).
Proof.
  set (sch := schema_of [tdef "Hue" (ts_enum ["RED"]); tdef "Paint" (ts_enum ["RED"])] []).
  exists "Demo", sch, (match new_model sch with Ok m => m | _ => mkModel sch [] [] end). split; [reflexivity|].
  intros N. apply NoDup_remove_2 with (l := ["Demo"; "Hue"]) (l' := ["namesHue"; "Paint"; "RED"; "namesPaint"]) (a := "RED") in N.
  apply N. simpl. tauto.
Qed.
Print Assumptions C42_declared_names_refuted.
(** The package directory lies below the output directory (which must be given). *)
Theorem C42_package_below : forall outdir pkg, outdir <> "" -> exists l, below (clean outdir) (package_dir outdir pkg) l.
Proof. intros outdir pkg H. apply package_below. exact H. Qed.
Print Assumptions C42_package_below.
(** It is the one the configuration names. *)
Theorem C42_package_named : forall outdir labels, outdir <> "" -> labels <> [] ->
  (forall x, In x labels -> plain_component x /\ no_char "." x) ->
  below (clean outdir) (package_dir outdir (join "." labels)) labels.
Proof. exact package_exact. Qed.
Print Assumptions C42_package_named.
(** The files are placed directly in it.  Missing: names with a slash. *)
Theorem C42_files_below_partial : forall outdir pkg name suffix, outdir <> "" -> no_char "/" name -> In suffix go_suffixes ->
  exists f, below (package_dir outdir pkg) (go_file outdir pkg name suffix) [f].
Proof. exact file_below. Qed.
Print Assumptions C42_files_below_partial.
Example C42_files_case : go_file "out" "com.example" "demo" "_model.go" = "out/com/example/demo_model.go"
  /\ go_file "../gen/" "main" "demo" "_model.go" = "../gen/main/demo_model.go" /\ clean "../gen/" = "../gen".
Proof. repeat split. Qed.
Theorem C42_files_below_refuted : exists outdir pkg name suffix, outdir <> "" /\ In suffix go_suffixes
  /\ package_dir outdir pkg = "out/main" /\ go_file outdir pkg name suffix = "x_model.go".
Proof.
  exists "out", "main", "../../x", "_model.go". split; [discriminate|]. split; [left; reflexivity|]. split; reflexivity.
Qed.
Print Assumptions C42_files_below_refuted.
(** Without an output directory, a package name that starts with a dot is placed at the root. *)
Theorem C42_package_below_refuted : exists pkg, package_dir "" pkg = "/etc".
Proof. exists ".etc". reflexivity. Qed.
Print Assumptions C42_package_below_refuted.

(** ** C52 *)
(** A Go type name without brackets is one of Go's own, one of the runtime library's, a helper type that the
    generated file also declares (Decimal, Timestamp), or a declared type.  Missing: the kinds listed. *)
Theorem C52_go_known_partial : forall sch m runtime f ts n s, new_model sch = Ok m ->
  ~ In n ["UnitValue"; "Bytes"; "UUID"; "Any"; "Struct"; "Enum"; "Union"; "Array"; "Map"] ->
  native_type m runtime f ts n = Ok s ->
  In s go_predeclared \/ In s ["*Decimal"; "*Timestamp"; "*sadl.Decimal"; "*sadl.Timestamp"]
  \/ exists td, In td (sc_types sch) /\ (s = td_name td \/ s = "*" +++ td_name td).
Proof.
  intros sch m rt f ts n s Hm N H.
  assert (G : go_base m rt n s) by (eapply native_base; [| |exact H]; intros ->; apply N; simpl; tauto).
  assert (D : forall td, find_type m n = Some td -> ~ In n prims -> ~ In n ptrs -> In td (sc_types sch) /\ td_name td = n).
  { intros td F P Q. destruct (go_find sch m Hm n td F) as [[B _]|X]; [|exact X]. exfalso. simpl in B, N, P, Q. intuition congruence. }
  destruct G as [n H'|n H'|n td F T|n td F T U].
  - left. simpl in H'. repeat (destruct H' as [<-|H']; [apply str_mem_In; reflexivity|]). destruct H'.
  - right. left. simpl in H'. destruct H' as [<-|[<-|[<-|[]]]]; [destruct rt; simpl; tauto|destruct rt; simpl; tauto|elim N; simpl; tauto].
  - destruct (in_dec string_dec n ptrs) as [P|P]; [|destruct (in_dec string_dec n prims) as [Q|Q]].
    + right. left. simpl in P. destruct P as [<-|[<-|[<-|[]]]]; [simpl; tauto|simpl; tauto|elim N; simpl; tauto].
    + exfalso. destruct (go_find sch m Hm n td F) as [[B ->]|[I E]].
      * simpl in T. subst n. apply N. simpl. tauto.
      * destruct (new_model_inv _ _ Hm) as (_ & _ & _ & _ & C & _). apply (C td I). rewrite E. simpl in Q |- *. tauto.
    + right. right. exists td. destruct (D td F Q P) as [I <-]. split; [exact I|right; reflexivity].
  - destruct (in_dec string_dec n ptrs) as [P|P].
    + exfalso. cbn [native_type] in H.
      destruct f as [|f]; [discriminate|]. cbn [native_type] in H. simpl in P.
      destruct P as [<-|[<-|[<-|[]]]]; simpl in H; destruct rt; discriminate.
    + right. right. exists td. destruct (D td F U P) as [I E]. split; [exact I|left; symmetry; exact E].
Qed.
Print Assumptions C52_go_known_partial.
Example C52_go_known_case : native_type go_model false 2 (ts_of "Point") "Point" = Ok "*Point".
Proof. reflexivity. Qed.
(** A UUID field: the type UUID is neither declared nor imported. *)
Theorem C52_go_known_refuted : exists sch m td f s, new_model sch = Ok m /\ In td (sc_types sch)
  /\ In f (ts_fields (td_spec td)) /\ native_type m false 2 (fd_spec f) (ts_type (fd_spec f)) = Ok s
  /\ ~ In s go_predeclared /\ ~ In s (model_decls "Demo" sch) /\ s = "UUID".
Proof.
  set (td := tdef "Item" (ts_struct [fld "id" true (ts_of "UUID")])). set (sch := schema_of [td] []).
  exists sch, (match new_model sch with Ok m => m | _ => mkModel sch [] [] end), td, (fld "id" true (ts_of "UUID")), "UUID".
  repeat split; try (left; reflexivity); intros H; simpl in H; repeat (destruct H as [H|H]; [discriminate|]); destruct H.
Qed.
Print Assumptions C52_go_known_refuted.
