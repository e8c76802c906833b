(** C120-C122: the Java export as a whole. *)
From Verif Require Import GoStr Outcome Value Data DataFacts Schema Scalars Time Model Misc ParserValidate Scan Parser Generator Golang GoModel Java JavaModel JavaService JavaExport
  SpecTime SpecModel SpecMisc SpecPV SpecParser SpecTrace SpecGo SpecGen SpecGoServer SpecJava SpecJavaService SpecJavaExport ModelFacts PVFacts Demo Lex FileFacts InvFacts InvNames ParsedFacts PropsParser TraceFacts PropsTrace
  PropsGo JavaFacts JavaText JavaFiles JavaGood PropsJava JavaServiceFacts PropsJavaService JavaExportFacts JavaPlaces JavaAsks.
From Coq Require Import Permutation.

(** ** C120 *)
(** Every setting has the value configured for it, or else its default; the package is the one configured, else the namespace,
    else the domain of the machine the other way round. *)
Theorem C120_settings_partial : forall host sch conf, (forall l, d_get conf ["domain"] <> VMap l) -> d_get conf ["-"] = VNil ->
  configured (fun k => d_get conf [k]) host sch (java_setup host sch conf).
Proof. exact setup_configured. Qed.
Print Assumptions C120_settings_partial.
Definition some_settings : data :=
  DMap [("name", VStr "shop"); ("domain", VStr "example.org"); ("server", VBool true); ("immutable", VStr "false"); ("server-package", VStr "s"); ("getters", VBool true)].
Example C120_settings_case :
  (forall l, d_get some_settings ["domain"] <> VMap l) /\ d_get some_settings ["-"] = VNil
  /\ java_setup "host.net" (mkSchema "" "store" "com.demo" "" "" [] [] [] [] "" []) some_settings
     = mkSU "demo.com" "src/main/java" (mkJO "Shop" "com.demo" "com.demo.model" banner false false true false false) (mkJSv "s" false "") true true false false
  /\ jo_package (su_options (java_setup "host.net" (mkSchema "" "store" "" "" "" [] [] [] [] "" []) new_data)) = "net.host".
Proof. split; [discriminate|]. repeat split. Qed.
(** Missing: the domain.  It is looked for below itself, so that configuring it changes nothing at all. *)
Theorem C120_domain_refuted : forall host sch l s, assoc "domain" l = None -> assoc "-" l = None ->
  java_setup host sch (d_put (DMap l) "domain" (VStr s)) = java_setup host sch (DMap l).
Proof. exact setup_domain. Qed.
Print Assumptions C120_domain_refuted.
Example C120_domain_case : assoc "domain" [("maven", VBool true)] = None /\ assoc "-" [("maven", VBool true)] = None
  /\ d_get (d_put (DMap [("maven", VBool true)]) "domain" (VStr "example.org")) ["domain"] = VStr "example.org"
  /\ su_domain (java_setup "localhost" (m_schema (parse_of store_lines)) (d_put (DMap [("maven", VBool true)]) "domain" (VStr "example.org"))) = "localhost".
Proof. split; [reflexivity|]. split; [reflexivity|]. split; vm_compute; reflexivity. Qed.
(** No other setting has an effect, not even those the generator has fields for: getters and resource. *)
Theorem C120_unread : forall host sch conf k v, ~ In k read_keys -> java_setup host sch (d_put conf k v) = java_setup host sch conf.
Proof. exact setup_unread. Qed.
Print Assumptions C120_unread.
Example C120_unread_case : ~ In "getters" read_keys /\ ~ In "resource" read_keys.
Proof. split; simpl; intuition discriminate. Qed.

(** ** C121 *)
(** When there is no error the files are those of the model, of the server and of the client, as far as they are switched on, and
    pom.xml comes on demand; and there is none exactly if each part that is switched on can be described. *)
Theorem C121_export_exact : forall dec_text sch m, new_model sch = Ok m -> forall su ord, (forall l, Permutation (ord l) l) ->
  (forall fuel st pom, java_export dec_text m su fuel ord = Ok (st, pom) -> js_err st = false ->
     export_texts dec_text sch su (outs st) /\ export_good dec_text sch su 
     /\ (if su_maven su then exists t, pom = Some t /\ pom_for (su_domain su) (jo_name (su_options su)) (jo_lombok (su_options su)) t else pom = None))
  /\ (export_good dec_text sch su -> exists f0, forall f, f0 <= f ->
      exists st pom, java_export dec_text m su f ord = Ok (st, pom) /\ js_err st = false).
Proof.
  intros dt sch m Hm su ord Ho. split.
  - intros f st pom H E. destruct (export_spec dt sch m Hm su f ord st pom Ho H E) as (T & G & ->). split; [exact T|]. split; [exact G|].
    destruct (su_maven su); [exact (pom_spec su st E)|reflexivity].
  - intros G. destruct (export_fine dt sch m Hm su ord Ho G) as (f0 & H). exists f0. intros f L. destruct (H f L) as (st & A & B). exists st. eexists. split; [exact A|exact B].
Qed.
Print Assumptions C121_export_exact.
Definition all_on : data := DMap [("server", VBool true); ("client", VBool true); ("maven", VBool true); ("example-implementation", VBool true); ("package", VStr "demo")].
Definition names_got (r : result unit (jstate * option string)) : option (list (string * string) * bool) :=
  match r with Ok (st, pom) => if js_err st then None else Some (map fst (outs st), match pom with Some _ => true | None => false end) | _ => None end.
Definition exported (conf : data) (l : list string) : result unit (jstate * option string) :=
  java_export toy_number (parse_of l) (java_setup "localhost" (m_schema (parse_of l)) conf) 30 (fun l => l).
Example C121_export_case : parse_sadl_string demo_ext no_files 0 9 (src store_lines) = Ok (parse_of store_lines)
  /\ names_got (exported all_on store_lines)
     = Some (map (pair "demo.model") ["Item"; "Oops"; "Gone"; "Store"; "GetItemRequest"; "GetItemResponse"; "PutItemRequest"; "PutItemResponse"; "Util"]
             ++ [("demo.server", "StoreResources"); ("", "Main"); ("", "StoreController"); ("demo.client", "ClientConfig"); ("demo.client", "StoreClient")], true).
Proof. parsed. vm_compute. reflexivity. Qed.
(** For a model without a name generating a server or a client never succeeds; the case below shows that it crashes. *)
Theorem C121_unnamed : forall dec_text sch m, new_model sch = Ok m -> forall su ord, (forall l, Permutation (ord l) l) -> sc_name sch = "" ->
  su_server su = true \/ su_client su = true -> 
  ~ exists fuel st pom, java_export dec_text m su fuel ord = Ok (st, pom) /\ js_err st = false.
Proof.
  intros dt sch m Hm su ord Ho N S (f & st & pom & H & E).
  destruct (export_spec dt sch m Hm su f ord st pom Ho H E) as (_ & (_ & G2 & G3) & _).
  destruct S as [S|S]; [destruct (G2 S) as (? & ? & Z & _)|destruct (G3 S) as (? & ? & Z & _)]; exact (Z N).
Qed.
Print Assumptions C121_unnamed.
Definition nameless_schema : schema := mkSchema "" "" "" "" "" [mkTD "Item" "" [] (ts_of "Bool")] [] [] [] "" [].
Example C121_unnamed_case : exists m, new_model nameless_schema = Ok m /\ sc_name nameless_schema = ""
  /\ java_export toy_number m (java_setup "localhost" nameless_schema all_on) 30 (fun l => l) = Panic
  /\ names_got (java_export toy_number m (java_setup "localhost" nameless_schema (DMap [("package", VStr "demo")])) 30 (fun l => l)) = Some ([], false).
Proof. eexists. split; [vm_compute; reflexivity|]. split; [reflexivity|]. split; vm_compute; reflexivity. Qed.

(** ** C122 *)
(** Package and class of every file. *)
Theorem C122_names_exact : forall dec_text sch m, new_model sch = Ok m -> forall su ord, (forall l, Permutation (ord l) l) ->
  forall fuel st pom, java_export dec_text m su fuel ord = Ok (st, pom) -> js_err st = false -> export_names sch su (map fst (outs st)).
Proof.
  intros dt sch m Hm su ord Ho f st pom H E. apply (export_named dt sch su). exact (proj1 (export_spec dt sch m Hm su f ord st pom Ho H E)).
Qed.
Print Assumptions C122_names_exact.
(** On a disk with room each file is stored if its path is that of no other file; of several files with one path the last is stored
    when overwriting is forced, else the first, and what was there before stays. *)
Theorem C122_stored_exact : forall outdir source i, io_stat i = false -> io_open i = true -> forall force fs g, g_err g = false ->
  (forall f, In f fs -> String.length (jf_text f) <= io_room i) ->
  let g' := store_files force outdir source i fs g in let path := java_path outdir source in
  g_err g' = false
  /\ (forall p, (forall f, In f fs -> p <> path f) -> g_fs g' p = g_fs g p)
  /\ (forall a f b, fs = a ++ f :: b -> force = true -> (forall x, In x b -> path x <> path f) -> g_fs g' (path f) = Some (jf_text f))
  /\ (forall p c, force = false -> g_fs g p = Some c -> g_fs g' p = Some c)
  /\ (forall a f b, fs = a ++ f :: b -> force = false -> g_fs g (path f) = None -> (forall x, In x a -> path x <> path f) -> g_fs g' (path f) = Some (jf_text f)).
Proof. intros od s i Hs Ho force fs g. exact (store_spec od s i Hs Ho force fs g). Qed.
Print Assumptions C122_stored_exact.
Definition roomy : io := mkIO false true 4900 false.
Definition empty_disk : gstate := mkGen false None (fun _ => None).
Example C122_stored_case :
  let fs := [mkJF "a.b" "X" "first"; mkJF "a.b" "Y" "other"; mkJF "a.b" "X" "second"] in
  g_fs (store_files false "out" "src" roomy fs empty_disk) "out/src/a/b/X.java" = Some "first"
  /\ g_fs (store_files true "out" "src" roomy fs empty_disk) "out/src/a/b/X.java" = Some "second"
  /\ g_fs (store_files true "out" "src" roomy fs empty_disk) "out/src/a/b/Y.java" = Some "other".
Proof. vm_compute. repeat split. Qed.
Lemma names_got_ok r ns b (Q : list (string * string) -> Prop) : names_got r = Some (ns, b) ->
  (forall st pom, r = Ok (st, pom) -> js_err st = false -> map fst (outs st) = ns -> Q (map fst (outs st))) ->
  exists st pom, r = Ok (st, pom) /\ js_err st = false /\ Q (map fst (outs st)).
Proof.
  unfold names_got. destruct r as [[st pom]| | |]; try discriminate. destruct (js_err st) eqn:E; [discriminate|].
  intros G H. apply some_eq in G. exists st, pom. split; [reflexivity|]. split; [exact E|]. exact (H st pom eq_refl E (f_equal fst G)).
Qed.
(** A file goes below the output directory: the source directory, a directory for each part of its package, and its class. *)
Theorem C122_place_exact : forall outdir rooted d source ss f l,
  path_is outdir rooted d -> Forall plain_component d -> path_is source false ss -> Forall plain_component ss -> ss <> [] ->
  package_parts (jf_package f) l -> no_char "/" (jf_name f) ->
  path_is (java_path outdir source f) rooted (d ++ ss ++ l ++ [jf_name f +++ ".java"]).
Proof. exact path_place. Qed.
Print Assumptions C122_place_exact.
Example C122_place_case :
  path_is "/home/out" true ["home"; "out"] /\ path_is "src/main/java" false ["src"; "main"; "java"]
  /\ Forall plain_component ["home"; "out"] /\ Forall plain_component ["src"; "main"; "java"]
  /\ package_parts "demo.model" ["demo"; "model"] /\ no_char "/" "Item"
  /\ java_path "/home/out" "src/main/java" (mkJF "demo.model" "Item" "") = "/home/out/src/main/java/demo/model/Item.java".
Proof.
  assert (Q : forall x, In x ["home"; "out"; "src"; "main"; "java"; "demo"; "model"] -> plain_component x /\ no_char "." x).
  { intros x I. cbn in I. repeat (destruct I as [<- |I]; [repeat split; try discriminate; apply no_char_smem; reflexivity|]). destruct I. }
  assert (A : Forall plain_component ["home"; "out"]) by (apply Forall_forall; intros x I; apply Q; cbn in *; tauto).
  assert (B : Forall plain_component ["src"; "main"; "java"]) by (apply Forall_forall; intros x I; apply Q; cbn in *; tauto).
  assert (W : forall l, Forall plain_component l -> Forall component l) by (intros l H; eapply Forall_impl; [|exact H]; intros c [X _]; exact X).
  split; [split; [exact (W _ A)|reflexivity]|]. split; [split; [exact (W _ B)|right; split; [discriminate|reflexivity]]|].
  split; [exact A|]. split; [exact B|]. split; [|split; [apply no_char_smem; reflexivity|vm_compute; reflexivity]].
  right. split; [discriminate|]. split; [reflexivity|]. intros x I. apply Q. cbn in *. tauto.
Qed.
(** With names that are plain names of directories and files, on a disk with room and nothing in the way, every class is on disk
    after storing exactly if no two files of different text have the same package and class. *)
Theorem C122_own_file_exact : forall outdir source, path_join [outdir; source] <> "" -> forall i force fs g,
  io_stat i = false -> io_open i = true -> g_err g = false -> (forall f, In f fs -> String.length (jf_text f) <= io_room i) ->
  (forall f, In f fs -> plain_file f) -> (force = false -> forall f, In f fs -> g_fs g (java_path outdir source f) = None) ->
  ((forall f, In f fs -> g_fs (store_files force outdir source i fs g) (java_path outdir source f) = Some (jf_text f))
   <-> (forall f f', In f fs -> In f' fs -> jf_package f = jf_package f' -> jf_name f = jf_name f' -> jf_text f = jf_text f')).
Proof. exact all_stored. Qed.
Print Assumptions C122_own_file_exact.
Example C122_own_file_case : path_join ["out"; "src/main/java"] <> "" /\ exists st pom, exported all_on store_lines = Ok (st, pom) /\ js_err st = false
  /\ (forall f, In f (js_files st) -> plain_file f) /\ NoDup (map fst (outs st)).
Proof.
  split; [vm_compute; discriminate|].
  assert (G : exists st pom, exported all_on store_lines = Ok (st, pom) /\ js_err st = false
    /\ ((forall p n, In (p, n) (map fst (outs st)) -> (exists l, package_parts p l) /\ no_char "/" n) /\ NoDup (map fst (outs st)))).
  { apply names_got_ok with (Q := fun ns => (forall p n, In (p, n) ns -> (exists l, package_parts p l) /\ no_char "/" n) /\ NoDup ns) (b := true)
      (ns := map (pair "demo.model") ["Item"; "Oops"; "Gone"; "Store"; "GetItemRequest"; "GetItemResponse"; "PutItemRequest"; "PutItemResponse"; "Util"]
             ++ [("demo.server", "StoreResources"); ("", "Main"); ("", "StoreController"); ("demo.client", "ClientConfig"); ("demo.client", "StoreClient")]).
    - vm_compute. reflexivity.
    - intros st pom _ _ ->. split.
      + assert (D : forall x, In x ["model"; "server"; "client"] -> exists l, package_parts ("demo." +++ x) l).
        { intros x I. exists ["demo"; x]. right. split; [discriminate|]. split; [reflexivity|].
          intros y Y. assert (Z : In y ["demo"; "model"; "server"; "client"]) by (destruct Y as [<-|[<-|[]]]; [left; reflexivity|right; exact I]).
          assert (B : smem "/" y = false /\ smem "." y = false /\ y <> "" /\ y <> "." /\ y <> "..").
          { cbn in Z. repeat (destruct Z as [<-|Z]; [repeat split; discriminate|]). destruct Z. }
          destruct B as (B1 & B2 & B3 & B4 & B5). apply no_char_smem in B1, B2. split; [split; [split; [exact B3|split; [exact B4|exact B1]]|exact B5]|exact B2]. }
        intros p n I. cbn in I.
        repeat (destruct I as [I|I]; [injection I as <- <-; split; [first [apply (D "model"); simpl; tauto|apply (D "server"); simpl; tauto|apply (D "client"); simpl; tauto|exists []; left; split; reflexivity]
                                      |apply no_char_smem; reflexivity]|]). destruct I.
      + repeat constructor; simpl; intuition discriminate. }
  destruct G as (st & pom & A & B & C & N). exists st, pom. split; [exact A|]. split; [exact B|]. split; [|exact N].
  intros f I. apply (C (jf_package f) (jf_name f)). unfold outs. rewrite map_map. exact (in_map (fun f => (jf_package f, jf_name f)) _ _ I).
Qed.
(** A class does not always have a file of its own: a type with the name of the service, types that differ in the case of the first
    letter, a type with the name of a request, a type with the name of a helper. *)
Definition clash_texts : list (list string) :=
  [ ["name store"; "type Store Struct {"; "  label String"; "}"];
    ["name store"; "type item Struct {"; "  label String"; "}"; "type Item Struct {"; "  size Int32"; "}"];
    ["name store"; "type GetItemRequest Struct {"; "  size Int32"; "}"; "http GET ""/items/{id}"" (operation=getItem) {"; "  id String"; "  expect 200 {"; "    size Int32"; "  }"; "}"];
    ["name store"; "type Util Struct {"; "  at Timestamp"; "}"] ].
Definition lost_text (conf : data) (l : list string) : bool :=
  match exported conf l with
  | Ok (st, _) => negb (js_err st) && existsb (fun f => match g_fs (store_files false "out" "src/main/java" roomy (js_files st) empty_disk) (java_path "out" "src/main/java" f) with
                                                         | Some c => negb (c =?s jf_text f) | None => true end) (js_files st)
  | _ => false
  end.
Theorem C122_own_file_refuted : forall l, In l clash_texts ->
  parse_sadl_string demo_ext no_files 0 9 (src l) = Ok (parse_of l)
  /\ exists st pom f, exported (DMap [("package", VStr "demo")]) l = Ok (st, pom) /\ js_err st = false /\ In f (js_files st)
     /\ g_fs (store_files false "out" "src/main/java" roomy (js_files st) empty_disk) (java_path "out" "src/main/java" f) <> Some (jf_text f).
Proof.
  intros l I.
  assert (P : parse_sadl_string demo_ext no_files 0 9 (src l) = Ok (parse_of l) /\ lost_text (DMap [("package", VStr "demo")]) l = true).
  { cbn in I. repeat (destruct I as [<- |I]; [split; vm_compute; reflexivity|]). destruct I. }
  destruct P as [P L]. split; [exact P|]. clear P I. unfold lost_text in L. destruct (exported _ l) as [[st pom]| | |]; try discriminate.
  apply andb_prop in L as [E L]. apply existsb_exists in L as (f & I & L). exists st, pom, f. split; [reflexivity|].
  split; [apply negb_true_iff in E; exact E|]. split; [exact I|]. intros C. rewrite C in L. rewrite seqb_refl in L. discriminate.
Qed.
Print Assumptions C122_own_file_refuted.
(** The interface that the client implements is generated if the configured name is that of the model ... *)
Theorem C122_interface_partial : forall dec_text sch m, new_model sch = Ok m -> forall su ord, (forall l, Permutation (ord l) l) ->
  forall fuel st pom, java_export dec_text m su fuel ord = Ok (st, pom) -> js_err st = false ->
  su_model su = true -> sc_name sch <> "" -> large_first (sc_name sch) (jo_name (su_options su)) ->
  In (jo_model_package (su_options su), jo_name (su_options su)) (map fst (outs st)).
Proof.
  intros dt sch m Hm su ord Ho f st pom H E M N L. destruct (C122_names_exact dt sch m Hm su ord Ho f st pom H E) as (ms & service & Ms & _ & Eq).
  rewrite M in Ms. destruct Ms as (ts & is & stamp & helper & _ & I & Em). rewrite Eq, Em. apply in_or_app. left. apply in_or_app. left. apply in_map. apply in_or_app. right.
  destruct I as [[Z _]|[_ (cs & _ & ->)]]; [|left; reflexivity].
  exfalso. rewrite Z in L. destruct L as [[Z' _]|(c & r & Z' & L)]; [exact (N Z')|]. destruct L as [(u & _ & Q)|[(_ & _ & Q)|(_ & Q)]]; [discriminate Q|rewrite Z' in Q; discriminate Q|discriminate Q].
Qed.
Print Assumptions C122_interface_partial.
Example C122_interface_case : let su := java_setup "localhost" (m_schema (parse_of store_lines)) all_on in
  new_model (m_schema (parse_of store_lines)) = Ok (parse_of store_lines) /\ su_model su = true
  /\ sc_name (m_schema (parse_of store_lines)) <> "" /\ large_first (sc_name (m_schema (parse_of store_lines))) (jo_name (su_options su))
  /\ exists st pom, java_export toy_number (parse_of store_lines) su 30 (fun l => l) = Ok (st, pom) /\ js_err st = false /\ In ("demo.model", "Store") (map fst (outs st)).
Proof.
  cbv zeta. split; [vm_compute; reflexivity|]. split; [vm_compute; reflexivity|]. split; [vm_compute; discriminate|].
  split; [apply large_first_iff; vm_compute; reflexivity|].
  apply names_got_ok with (Q := fun ns => In ("demo.model", "Store") ns) (b := true)
      (ns := map (pair "demo.model") ["Item"; "Oops"; "Gone"; "Store"; "GetItemRequest"; "GetItemResponse"; "PutItemRequest"; "PutItemResponse"; "Util"]
             ++ [("demo.server", "StoreResources"); ("", "Main"); ("", "StoreController"); ("demo.client", "ClientConfig"); ("demo.client", "StoreClient")]).
  - vm_compute. reflexivity.
  - intros st pom _ _ ->. cbn. tauto.
Qed.
(** ... and is missing when another one is configured: the client still implements the interface of the model. *)
Theorem C122_interface_refuted :
  parse_sadl_string demo_ext no_files 0 9 (src store_lines) = Ok (parse_of store_lines)
  /\ exists st pom, exported (DMap [("package", VStr "demo"); ("name", VStr "shop"); ("client", VBool true)]) store_lines = Ok (st, pom) /\ js_err st = false
     /\ In ("demo.client", "StoreClient") (map fst (outs st)) /\ (forall p, ~ In (p, "Store") (map fst (outs st))).
Proof.
  parsed. apply (names_got_ok) with (Q := fun l => In ("demo.client", "StoreClient") l /\ (forall p, ~ In (p, "Store") l)) (b := false) (ns := map (pair "demo.model") ["Item"; "Oops"; "Gone"; "Shop"; "GetItemRequest"; "GetItemResponse"; "PutItemRequest"; "PutItemResponse"; "Util"]
            ++ [("demo.client", "ClientConfig"); ("demo.client", "StoreClient")]).
  - vm_compute. reflexivity.
  - intros st pom _ _ ->. split; [apply in_or_app; right; right; left; reflexivity|]. intros p I. apply (in_map snd) in I. revert I. clear.
    intros I. cbn in I. repeat (destruct I as [I|I]; [discriminate I|]). exact I.
Qed.
Print Assumptions C122_interface_refuted.
