(** C124, C125: the Go export as a whole. *)
From Verif Require Import GoStr Outcome Value Data DataFacts Schema Scalars Time Model Misc MiscFacts ParserValidate Scan Parser Generator Golang GoModel GoServer GoClient GoExport
  SpecTime SpecModel SpecMisc SpecPV SpecParser SpecTrace SpecGo SpecGen SpecGoServer SpecGoClient SpecJavaExport SpecGoExport
  ModelFacts PVFacts Demo Lex FileFacts InvFacts InvNames ParsedFacts PropsParser TraceFacts PropsTrace GoModelFacts GoText GoServerFacts GoClientFacts
  PropsGoServer GoExportFacts PropsJavaExport.

(** ** C124 *)
(** Every setting has the value configured for it, or else its default. *)
Theorem C124_settings_exact : forall sch conf, go_configured (fun k => d_get conf [k]) sch (go_setup sch conf).
Proof. exact go_setup_configured. Qed.
Print Assumptions C124_settings_exact.
Example C124_settings_case :
  go_setup (schema_of [] []) (DMap [("server", VBool true); ("client", VStr "false"); ("name", VStr "store"); ("package", VStr "com.example.api")])
    = mkGS "Store" "com.example.api" true true false false
  /\ go_setup (schema_of [] []) DNil = mkGS "" "main" true false false false
  /\ package_name "com.example.api" = "api".
Proof. vm_compute. repeat split. Qed.
(** No other key of the configuration has an effect. *)
Theorem C124_other_settings : forall sch conf k v, ~ In k go_read_keys -> go_setup sch (d_put conf k v) = go_setup sch conf.
Proof. exact go_setup_unread. Qed.
Print Assumptions C124_other_settings.
Example C124_other_case : ~ In "header" go_read_keys.
Proof. cbn. intuition discriminate. Qed.
(** The package clause is what follows the last dot. *)
Theorem C124_clause : forall p, clause_of p (package_name p).
Proof. exact clause_last. Qed.
Print Assumptions C124_clause.
Example C124_clause_case : clause_of "com.example.api" "api" /\ ~ clause_of "com.example.api" "example.api".
Proof. split; [exact (C124_clause "com.example.api")|]. intros [N _]. apply N. exists "example", "api". reflexivity. Qed.
(** It need not be a name of Go, nor anything at all. *)
Theorem C124_clause_refuted : exists sch conf, config_string conf "package" "" <> "" /\ package_name (gs_package (go_setup sch conf)) = "".
Proof. exists (schema_of [] []), (DMap [("package", VStr "com.example.")]). vm_compute. split; [discriminate|reflexivity]. Qed.
Print Assumptions C124_clause_refuted.

(** ** C125 *)
(** The three files have different places, whatever the name and the package are. *)
Theorem C125_places : forall outdir su, NoDup (map (go_place outdir su) ["_model.go"; "_server.go"; "_client.go"]).
Proof. exact three_places. Qed.
Print Assumptions C125_places.
Example C125_places_case : map (go_place "out" (mkGS "../x" "a.b" true true true false)) ["_model.go"; "_server.go"; "_client.go"]
  = ["out/a/x_model.go"; "out/a/x_server.go"; "out/a/x_client.go"].
Proof. vm_compute. reflexivity. Qed.
(** The files are open to writing and there is room for every text. *)
Definition writable (i : io) (sprint : value -> string) (parse_time : string -> option timestamp) (m : model) (su : gosetup) : Prop :=
  io_stat i = false /\ io_open i = true /\ roomy_for sprint parse_time i m su.
(** When the export crashes, when it returns an error, and what is then on disk: the files of the parts before the failing
    one, with the text of C98, C103 and C106; everything else is as before. *)
Theorem C125_export_exact : forall sprint parse_time force i sch m conf outdir g, new_model sch = Ok m -> g_err g = false ->
  let su := go_setup sch conf in let at_ := go_place outdir su in
  writable i sprint parse_time m su ->
  let r := go_export sprint parse_time force i true outdir m su g in
  let stops := gs_server su = true /\ server_fails sch in
  (r = Panic <-> gs_model su = true /\ go_fails sch)
  /\ (r <> Panic -> exists g', r = Ok g'
      /\ (g_err g' = true <-> stops \/ gs_client su = true /\ client_fails sch)
      /\ (gs_model su = true -> exists s, model_file timestamp_type decimal_type sch su s /\ g_fs g' (at_ "_model.go") = left_at force (g_fs g (at_ "_model.go")) s)
      /\ (gs_server su = true -> ~ server_fails sch ->
          exists s, server_file server_library sprint (fun s t => parse_time s = Some t) (fun t s => s = ts_string t) sch su s
                    /\ g_fs g' (at_ "_server.go") = left_at force (g_fs g (at_ "_server.go")) s)
      /\ (gs_client su = true -> ~ client_fails sch -> ~ stops ->
          exists s, client_file sch su s /\ g_fs g' (at_ "_client.go") = left_at force (g_fs g (at_ "_client.go")) s)
      /\ forall p, ~ (gs_model su = true /\ p = at_ "_model.go") -> ~ (gs_server su = true /\ ~ server_fails sch /\ p = at_ "_server.go") ->
           ~ (gs_client su = true /\ ~ client_fails sch /\ ~ stops /\ p = at_ "_client.go") -> g_fs g' p = g_fs g p).
Proof.
  intros sprint parse_time force i sch m conf outdir g Hm E su at_ (Hs & Ho & R).
  apply (go_export_spec sprint parse_time force i sch m Hm su outdir Hs Ho g E R).
Qed.
Print Assumptions C125_export_exact.
(** If the directory cannot be made nothing is written. *)
Theorem C125_no_directory : forall sprint parse_time force i m su outdir g, g_err g = false ->
  exists g', go_export sprint parse_time force i false outdir m su g = Ok g' /\ g_err g' = true /\ g_fs g' = g_fs g.
Proof. intros sprint parse_time force i m su outdir g. exact (go_export_no_dir sprint parse_time force i m su outdir g). Qed.
Print Assumptions C125_no_directory.
Definition everything : data := DMap [("server", VBool true); ("client", VBool true)].
Definition big : io := mkIO false true (4900 * 8) false.
Definition there (r : result unit gstate) (ps : list string) : option (bool * list bool) :=
  match r with Ok g => Some (g_err g, map (fun p => match g_fs g p with Some _ => true | None => false end) ps) | _ => None end.
Definition go_run (conf : data) (l : list string) : result unit gstate :=
  go_export toy_print toy_time false big true "out" (parse_of l) (go_setup (m_schema (parse_of l)) conf) empty_disk.
Example C125_no_directory_case : let m := parse_of ("name store" :: server_lines) in
  there (go_export toy_print toy_time true big false "out" m (go_setup (m_schema m) everything) empty_disk)
    ["out/main/store_model.go"; "out/main/store_server.go"; "out/main/store_client.go"] = Some (true, [false; false; false]).
Proof. vm_compute. reflexivity. Qed.
Definition fits (r : result unit string) : bool := match r with Ok s => String.length s <=? io_room big | _ => true end.
Lemma fits_all m su : let pkg := package_name (gs_package su) in
  fits (GoModel.create_model m (gs_runtime su) (gs_name su) pkg) = true -> fits (create_server toy_print toy_time m (gs_runtime su) (gs_name su) pkg) = true ->
  fits (create_client m (gs_runtime su) (gs_name su) pkg) = true -> writable big toy_print toy_time m su.
Proof.
  intros pkg A B C. subst pkg. split; [reflexivity|]. split; [reflexivity|]. unfold fits in *.
  intros s [E|[E|E]]; [rewrite E in A|rewrite E in B|rewrite E in C]; apply Nat.leb_le; assumption.
Qed.
Example C125_export_case : parse_sadl_string demo_ext no_files 0 9 (src ("name store" :: server_lines)) = Ok (parse_of ("name store" :: server_lines))
  /\ (let m := parse_of ("name store" :: server_lines) in new_model (m_schema m) = Ok m /\ writable big toy_print toy_time m (go_setup (m_schema m) everything))
  /\ there (go_run everything ("name store" :: server_lines)) ["out/main/store_model.go"; "out/main/store_server.go"; "out/main/store_client.go"; "out/main/Store_model.go"]
     = Some (false, [true; true; true; false])
  /\ there (go_run DNil ("name store" :: server_lines)) ["out/main/store_model.go"; "out/main/store_server.go"; "out/main/store_client.go"] = Some (false, [true; false; false]).
Proof.
  parsed. split; [split; [vm_compute; reflexivity|apply fits_all; vm_compute; reflexivity]|]. split; vm_compute; reflexivity.
Qed.
(** An error does not mean that nothing was written, and the client is missing though it could be generated. *)
Theorem C125_all_or_nothing_refuted : exists l, parse_sadl_string demo_ext no_files 0 9 (src l) = Ok (parse_of l)
  /\ there (go_run everything l) ["out/main/s_model.go"; "out/main/s_server.go"; "out/main/s_client.go"] = Some (true, [true; false; false])
  /\ there (go_run (DMap [("client", VBool true)]) l) ["out/main/s_model.go"; "out/main/s_server.go"; "out/main/s_client.go"] = Some (false, [true; false; true]).
Proof.
  exists ["name s"; "http GET ""/x?k={k}"" (operation=getX) {"; "  k Bool"; "  expect 200"; "}"]. parsed. split; vm_compute; reflexivity.
Qed.
Print Assumptions C125_all_or_nothing_refuted.
