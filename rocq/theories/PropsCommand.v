(** C82-C87: the command line tool. *)
From Verif Require Import GoStr Outcome Value Data DataFacts Schema Scalars Time Model ModelFacts Misc ParserValidate OpenApi OpenApiImport SmithyAst GraphqlImport JsonAst Scan Parser
  Command SpecCommand CommandFacts CommandOpts Demo PropsExport PropsSmithy PropsGraphql PropsJson Lex.

(** A directory "api" with three files; the model of a file does not matter to which files are read *)
Definition dir_stat (p : string) : option bool := if p =?s "api" then Some true else if p =?s "README" then Some false else None.
Definition dir_walk (p : string) : list string := ["api"; "api/README"; "api/a.json"; "api/b.smithy"; "api/notes.txt"].
Definition no_load (p : string) : result unit model := Err tt.
Definition all_smithy (f p : string) : result unit bool := Ok (f =?s "smithy").

(** ** C82 *)
(** The files that are read and the importer that reads them, exactly. *)
Theorem C82_files_exact : forall stat walk load recognise conf args call,
  import_files stat walk load recognise conf args = Ok call
  <-> exists l f sel, candidates stat walk args l /\ selects load recognise f l sel /\ sel <> [] /\ called f sel call.
Proof. exact import_iff. Qed.
Print Assumptions C82_files_exact.
Theorem C82_total : forall stat walk load recognise conf args, (forall p, load p <> OutOfFuel) -> (forall f p, recognise f p <> OutOfFuel) ->
  import_files stat walk load recognise conf args <> OutOfFuel.
Proof.
  intros stat walk load recognise conf args HL HR. unfold import_files. pose proof (expand_total stat walk load recognise args) as (_ & T).
  destruct (expand_paths stat walk args) as [l|x| |]; cbn [rbind]; try congruence.
  assert (V : forall f p, valid_file load recognise f p <> OutOfFuel).
  { intros f p. unfold valid_file, sadl_valid, graphql_valid. destruct (f =?s "sadl"); [|destruct (f =?s "graphql"); [discriminate|apply HR]].
    destruct (has_suffix _ _); [discriminate|]. destruct (has_suffix _ _); [|discriminate]. specialize (HL p). destruct (load p); congruence. }
  assert (F : forall fs p, first_valid load recognise fs p <> OutOfFuel).
  { induction fs as [|f fs IH]; intros p; cbn [first_valid]; [discriminate|]. specialize (V f p). destruct (valid_file load recognise f p) as [[|]|x| |]; cbn [rbind]; congruence || apply IH. }
  assert (VT : forall p, valid_import_type load recognise p <> OutOfFuel) by (intros p; unfold valid_import_type; destruct (assoc _ _); [apply F|discriminate]).
  assert (C : forall l c, choose load recognise c l <> OutOfFuel).
  { induction l0 as [|p r IH]; intros c; cbn [choose]; [discriminate|]. specialize (VT p). destruct (valid_import_type load recognise p) as [g|x| |]; cbn [rbind]; try congruence.
    destruct (g =?s ""); [apply IH|]. destruct (_ && _); [discriminate|]. specialize (IH g). destruct (choose load recognise g r) as [[]|x| |]; cbn [rbind]; congruence. }
  specialize (C l ""). destruct (choose load recognise "" l) as [[f sel]|x| |]; cbn [rbind]; try congruence.
  destruct (f =?s ""); [discriminate|]. unfold call_of. destruct (f =?s "sadl"); [destruct sel as [|? [|? ?]]; discriminate|]. destruct (str_mem _ _); discriminate.
Qed.
Print Assumptions C82_total.
Example C82_files_case : import_files dir_stat dir_walk no_load all_smithy DNil ["README"; "api"; "more.json"] = Ok (CImport "smithy" ["api/a.json"; "api/b.smithy"; "more.json"])
  /\ candidates dir_stat dir_walk ["README"; "api"; "more.json"] ["api/a.json"; "api/b.smithy"; "more.json"]
  /\ import_files dir_stat dir_walk no_load all_smithy DNil ["api/a.b/c.sadl"] = Ok (CParse "api/a.b/c.sadl")
  /\ import_files dir_stat dir_walk no_load all_smithy DNil ["a.sadl"; "b.sadl"] = Err tt
  /\ import_files dir_stat dir_walk no_load all_smithy DNil ["api"; "a.graphql"] = Err tt.
Proof. repeat split; try (vm_compute; reflexivity). apply candidates_iff. vm_compute. reflexivity. Qed.

(** ** C83 *)
(** Importing crashes, before any importer is called, exactly if finding out the format of a file does. *)
Theorem C83_crash_exact : forall stat walk load recognise conf args,
  import_files stat walk load recognise conf args = Panic
  <-> exists a p b f sel, candidates stat walk args (a ++ p :: b) /\ crashes load recognise p /\ selects load recognise f a sel.
Proof. exact import_panic. Qed.
Print Assumptions C83_crash_exact.
(** Missing: readers that crash. *)
Theorem C83_no_crash_partial : forall stat walk load recognise conf args,
  (forall p, load p <> Panic) -> (forall f p, recognise f p <> Panic) -> import_files stat walk load recognise conf args <> Panic.
Proof.
  intros stat walk load recognise conf args HL HR P. apply import_panic in P as (a & p & b & f & sel & _ & (e & l1 & g & l2 & _ & _ & S & _) & _).
  destruct S as [(_ & _ & [(m & _ & ?)|[(x & _ & ?)|[(E & _)|(_ & ?)]]])|[(_ & _ & ?)|[(_ & ?)|(_ & _ & E)]]]; try discriminate; [exact (HL p E)|symmetry in E; exact (HR g p E)].
Qed.
Print Assumptions C83_no_crash_partial.
Example C83_no_crash_case : (forall p, no_load p <> Panic) /\ (forall f p, all_smithy f p <> Panic).
Proof. split; discriminate. Qed.
(** A JSON file with a null among its types, alone or next to files that could be read. *)
Definition null_load (p : string) : result unit model :=
  match load_model to_double keep (if p =?s "x.json" then Some (JObj [("sadl", JStr "1.9"); ("types", JArr [JNull])]) else None) with
  | Ok m => Ok m | Err _ => Err tt | Panic => Panic | OutOfFuel => OutOfFuel end.
Theorem C83_no_crash_refuted : forall stat walk recognise conf,
  import_files stat walk null_load recognise conf ["x.json"] = Panic /\ import_files stat walk null_load recognise conf ["a.smithy"; "x.json"] <> Ok (CImport "smithy" ["a.smithy"]).
Proof.
  intros stat walk recognise conf. assert (P : valid_import_type null_load recognise "x.json" = Panic) by (vm_compute; reflexivity). split.
  - unfold import_files. cbn [expand_paths]. change (known_ext "x.json") with true. cbn [rbind app choose]. rewrite P. reflexivity.
  - unfold import_files. cbn [expand_paths]. change (known_ext "x.json") with true. change (known_ext "a.smithy") with true. cbn [rbind app choose]. rewrite P.
    destruct (valid_import_type null_load recognise "a.smithy") as [g|x| |]; cbn [rbind]; try discriminate. destruct (g =?s ""); cbn; discriminate.
Qed.
Print Assumptions C83_no_crash_refuted.

(** ** C84 *)
(** With -t, what is called reads files of that type.  Missing: the files of another type, where it is false. *)
Theorem C84_type_partial : forall stat walk load recognise t name ns service base args call,
  (forall l p f, candidates stat walk args l -> In p l -> reads_as load recognise p f -> f = t) ->
  import_files stat walk load recognise (import_conf name ns service t base) args = Ok call ->
  exists sel, called t sel call /\ forall p, In p sel -> reads_as load recognise p t.
Proof.
  intros stat walk load recognise t name ns service base args call H E. apply import_iff in E as (l & f & sel & C & S & N & K).
  destruct sel as [|p0 r]; [congruence|]. assert (R := selects_first _ _ _ _ _ S).
  assert (f = t) as ->.
  { apply (H l p0 f C); [|apply R; now left]. clear - S. remember (p0 :: r) as sel eqn:E. revert p0 r E. induction S; intros p0 r' E; [discriminate| |right; eauto].
    injection E as -> ->. now left. }
  exists (p0 :: r). auto.
Qed.
Print Assumptions C84_type_partial.
Example C84_type_case : forall l p f, candidates dir_stat dir_walk ["api"] l -> In p l -> reads_as no_load all_smithy p f -> f = "smithy".
Proof.
  intros l p f C I R. apply candidates_iff in C. vm_compute in C. injection C as <-. assert (N := reads_nonempty _ _ _ _ R). apply (type_iff _ _ _ _ N) in R.
  destruct I as [<- |[<- |[]]]; vm_compute in R; congruence.
Qed.
(** The option is not looked at: a SADL file is read although only Smithy files were asked for; of a SADL and a
    Smithy file none is read. *)
Theorem C84_type_refuted :
  (forall stat walk load recognise name ns service t base, import_files stat walk load recognise (import_conf name ns service t base) ["a.sadl"] = Ok (CParse "a.sadl"))
  /\ (forall stat walk load name ns service base, import_files stat walk load all_smithy (import_conf name ns service "smithy" base) ["a.sadl"; "b.smithy"] = Err tt
      /\ reads_as load all_smithy "b.smithy" "smithy" /\ reads_as load all_smithy "a.sadl" "sadl").
Proof.
  split; [intros; vm_compute; reflexivity|]. intros. split; [vm_compute; reflexivity|].
  split; apply type_iff; try discriminate; vm_compute; reflexivity.
Qed.
Print Assumptions C84_type_refuted.
Theorem C84_type_ignored : forall stat walk load recognise name ns service t t' base args,
  import_files stat walk load recognise (import_conf name ns service t base) args = import_files stat walk load recognise (import_conf name ns service t' base) args.
Proof. reflexivity. Qed.
Print Assumptions C84_type_ignored.

(** ** C85 *)
(** The options a generator is run with, exactly, for every generator, where its section of the configuration is an
    object or absent: the last -x for a key, up to a second equals sign; else -f; else the section. *)
Theorem C85_options_exact : forall conf gen sec force opts k v,
  (gen = "java-server" -> sec = "java") -> (gen <> "java-server" -> sec = gen) -> is_section (d_get conf [sec]) ->
  (d_get (generator_conf conf gen force opts) [k] = v <-> option_value option_read (d_get conf [sec]) force opts k v).
Proof.
  intros conf gen sec force opts k v H1 H2. apply generator_value. unfold generator_section. destruct (gen =?s "java-server") eqn:G.
  - apply seqb_eq in G. auto.
  - apply seqb_neq in G. auto.
Qed.
Print Assumptions C85_options_exact.
(** Missing: options with two equals signs; a section that is no object. *)
Theorem C85_options_partial : forall conf gen sec force opts k v,
  (gen = "java-server" -> sec = "java") -> (gen <> "java-server" -> sec = gen) -> is_section (d_get conf [sec]) -> (forall o, In o opts -> plain_option o) ->
  (d_get (generator_conf conf gen force opts) [k] = v <-> option_value option_says (d_get conf [sec]) force opts k v).
Proof. intros conf gen sec force opts k v H1 H2 S P. rewrite <- (options_plain _ _ _ _ _ P). now apply C85_options_exact. Qed.
Print Assumptions C85_options_partial.
Definition opt_conf : data := DMap [("java", VMap [("source", VStr "src"); ("getters", VBool false)]); ("go", VStr "none")].
Example C85_options_case : is_section (d_get opt_conf ["java"]) /\ (forall o, In o ["getters"; "header=x"; "source="] -> plain_option o)
  /\ let d := generator_conf opt_conf "java-server" true ["getters"; "header=x"; "source="] in
     d_get d ["getters"] = VBool true /\ d_get d ["header"] = VStr "x" /\ d_get d ["source"] = VStr "" /\ d_get d ["force-overwrite"] = VBool true /\ d_get d ["maven"] = VNil.
Proof.
  split; [|split].
  - right. eexists. split; [reflexivity|]. cbn. constructor; [intros [?|[]]; discriminate|]. constructor; [intros []|constructor].
  - assert (G : forall o k0 s0, cut "=" o = Some (k0, s0) -> smem "=" s0 = false -> plain_option o).
    { intros o k0 s0 C N k s E Nk. assert (C' : cut "=" o = Some (k, s)) by (apply cut_Some; auto). rewrite C in C'. injection C' as <- <-. exact N. }
    intros o [<- |[<- |[<- |[]]]].
    + intros k s E _. exfalso. assert (Q : smem "=" "getters" = true) by (rewrite E, smem_app; cbn [smem]; rewrite Ascii.eqb_refl; apply orb_true_r). discriminate Q.
    + apply (G _ "header" "x"); reflexivity.
    + apply (G _ "source" ""); reflexivity.
  - vm_compute. auto 8.
Qed.
(** The rest of a value is lost; beside a section that is no object no option reaches the generator, nor does -f. *)
Theorem C85_options_refuted :
  (exists o k v, option_says o k v /\ forall conf gen force, is_section (d_get conf [generator_section gen]) -> d_get (generator_conf conf gen force [o]) [k] <> v)
  /\ (exists conf, forall force opts k, d_get (generator_conf conf "go" force opts) [k] = VNil).
Proof.
  split.
  - exists "header=a=b", "header", (VStr "a=b"). split; [left; exists "a=b"; auto|]. intros conf gen force S E.
    apply (generator_value _ _ _ _ _ _ _ eq_refl S) in E as [(a & o & b & H & R & _)|(N & _)].
    + destruct a as [|x [|y a]]; cbn in H; try discriminate. injection H as <- _.
      apply option_pair_iff in R. vm_compute in R. discriminate.
    + apply (N "header=a=b" (VStr "a")); [now left|]. apply option_pair_iff. vm_compute. reflexivity.
  - exists opt_conf. intros force opts k. unfold generator_conf. rewrite fold_puts. change (as_data (d_get opt_conf [generator_section "go"])) with (DOther (VStr "none")).
    cbn [d_put]. rewrite puts_other_data. reflexivity.
Qed.
Print Assumptions C85_options_refuted.

(** ** C86 *)
(** java-server is java with the option "server", whatever the configuration. *)
Theorem C86_java_server : forall conf force opts,
  run_generator conf "java-server" force opts = run_generator conf "java" force (opts ++ ["server"]).
Proof.
  intros conf force opts. unfold run_generator. set (c := match conf with Some d => d | None => new_data end).
  change (Some ("java", d_put (generator_conf c "java-server" force opts) "server" (VBool true)) = Some ("java", generator_conf c "java" force (opts ++ ["server"]))).
  do 2 f_equal. apply shorthand_java; reflexivity.
Qed.
Print Assumptions C86_java_server.
(** The other shorthands are, if their own section of the configuration says what the generator's does.  Missing: when it does not. *)
Theorem C86_shorthands_partial : forall conf force opts short gen o, In (short, gen, o) [("java-client", "java", "client"); ("go-server", "go", "server"); ("go-client", "go", "client")] ->
  d_get conf [short] = d_get conf [gen] ->
  run_generator (Some conf) short force opts = run_generator (Some conf) gen force (opts ++ [o]).
Proof.
  intros conf force opts short gen o I E. unfold run_generator.
  assert (H : forall c c', export_call short c = Some (gen, d_put c o (VBool true)) /\ export_call gen c' = Some (gen, c')).
  { intros c c'. destruct I as [[= <- <- <-]|[[= <- <- <-]|[[= <- <- <-]|[]]]]; split; reflexivity. }
  rewrite (proj1 (H _ new_data)), (proj2 (H new_data _)). do 2 f_equal.
  destruct I as [[= <- <- <-]|[[= <- <- <-]|[[= <- <- <-]|[]]]]; apply shorthand_java; (exact E || reflexivity).
Qed.
Print Assumptions C86_shorthands_partial.
Theorem C86_unconfigured : forall force opts short gen o, In (short, gen, o) [("java-client", "java", "client"); ("go-server", "go", "server"); ("go-client", "go", "client")] ->
  run_generator None short force opts = run_generator None gen force (opts ++ [o]).
Proof. intros force opts short gen o I. exact (C86_shorthands_partial new_data force opts short gen o I eq_refl). Qed.
Print Assumptions C86_unconfigured.
Definition short_conf : data := DMap [("java", VMap [("source", VStr "src")]); ("go", VMap [("header", VStr "x")])].
Example C86_shorthands_case : exists d, run_generator (Some short_conf) "java-server" false ["maven"] = Some ("java", d)
  /\ d_get d ["source"] = VStr "src" /\ d_get d ["server"] = VBool true /\ d_get d ["maven"] = VBool true.
Proof. eexists. split; [vm_compute; reflexivity|]. repeat split. Qed.
(** With a configuration for the generator, each of the three runs without it. *)
Theorem C86_shorthands_refuted : forall short gen o, In (short, gen, o) [("java-client", "java", "client"); ("go-server", "go", "server"); ("go-client", "go", "client")] ->
  exists k d d', run_generator (Some short_conf) short false [] = Some (gen, d) /\ run_generator (Some short_conf) gen false [o] = Some (gen, d')
  /\ d_get d [k] = VNil /\ d_get d' [k] <> VNil /\ ~ same_options d d'.
Proof.
  intros short gen o [[= <- <- <-]|[[= <- <- <-]|[[= <- <- <-]|[]]]]; [exists "source"|exists "header"|exists "header"]; eexists _, _;
    (split; [vm_compute; reflexivity|]; split; [vm_compute; reflexivity|]; split; [reflexivity|]; split; [discriminate|]; intros S);
    [specialize (S "source")|specialize (S "header")|specialize (S "header")]; discriminate S.
Qed.
Print Assumptions C86_shorthands_refuted.

(** ** C87 *)
(** The name and namespace given with -n and -ns are the model's: GraphQL; Smithy, but for the namespace "example";
    SADL without the words name and namespace.  Missing: the others, where it is false. *)
Theorem C87_graphql : forall read parse name ns service t base paths m, name <> "" ->
  graphql_import_conf read parse (import_conf name ns service t base) paths = Ok m -> sc_name (m_schema m) = name /\ sc_namespace (m_schema m) = ns.
Proof.
  intros read parse name ns service t base paths m N E. unfold graphql_import_conf in E. destruct (import_conf_get name ns service t base) as (-> & -> & _) in E.
  destruct (gql_files read parse name ns paths) as [(path & src & doc & -> & R & P)|F]; [|congruence].
  destruct (C75_meaning read parse name ns path src doc m R P E) as (kept & l & _ & _ & _ & H & _ & H' & _). auto.
Qed.
Print Assumptions C87_graphql.
Theorem C87_smithy_partial : forall L name ns service t base a m, name <> "" -> ns <> "example" ->
  smithy_import_conf L (import_conf name ns service t base) a = Ok m -> sc_name (m_schema m) = name /\ sc_namespace (m_schema m) = ns /\ sc_base (m_schema m) = base.
Proof.
  intros L name ns service t base a m N N' E. unfold smithy_import_conf in E. destruct (import_conf_get name ns service t base) as (-> & -> & -> & ->) in E.
  unfold smithy_import in E. apply rbind_Ok in E as (sch & E1 & E2). unfold smithy_schema in E1. apply rbind_Ok in E1 as ((sn & sv) & _ & E1). apply rbind_Ok in E1 as (p & _ & E1).
  injection E1 as <-. destruct (new_model _) as [m'|x| |] eqn:M in E2; try discriminate. injection E2 as <-. apply new_model_inv in M as (-> & _).
  cbn [sc_name sc_namespace sc_base]. apply seqb_neq in N, N'. rewrite N, N'. auto.
Qed.
Print Assumptions C87_smithy_partial.
Theorem C87_sadl_partial : forall X files base_name version name ns service t base d vf path toks m, name <> "" ->
  files path = Some toks -> no_word "name" toks -> no_word "namespace" toks ->
  parse_sadl_file X (sadl_env_conf files base_name version (import_conf name ns service t base)) d vf path = Ok m -> sc_name (m_schema m) = name /\ sc_namespace (m_schema m) = ns.
Proof.
  intros X files base_name version name ns service t base d vf path toks m N F W1 W2 E.
  unfold sadl_env_conf in E. destruct (import_conf_get name ns service t base) as (-> & -> & _) in E.
  unfold parse_sadl_file, check in E. destruct (read_file X _ d path) as [m'|x| |] eqn:R; try discriminate. destruct (parser_validate X m' vf); try discriminate. injection E as <-.
  split.
  - rewrite (nm_read_file X (mkEnv files name ns base_name version) toks "name" sc_name W1 (or_introl (conj eq_refl eq_refl)) d path m' F R). cbn. apply seqb_neq in N. now rewrite N.
  - exact (nm_read_file X (mkEnv files name ns base_name version) toks "namespace" sc_namespace W2 (or_intror (conj eq_refl eq_refl)) d path m' F R).
Qed.
Print Assumptions C87_sadl_partial.
Definition cmd_files (text : list string) (p : string) : option (list token) := if p =?s "a.sadl" then Some (src text) else None.
Example C87_cases :
  (exists m, graphql_import_conf (gql_read [("a.graphql", "text")]) (only "text" gql_demo) (import_conf "mine" "org.x" "" "" "") ["a.graphql"] = Ok m)
  /\ (exists m, smithy_import_conf demo_lib (import_conf "mine" "org.x" "" "" "/v1") demo_ast = Ok m)
  /\ (exists m, parse_sadl_file demo_ext (sadl_env_conf (cmd_files ["type A Int32"]) (fun s => s) "1" (import_conf "mine" "org.x" "" "" "")) 3 50 "a.sadl" = Ok m)
  /\ no_word "name" (src ["type A Int32"]) /\ no_word "namespace" (src ["type A Int32"]).
Proof.
  split; [eexists; vm_compute; reflexivity|]. split; [eexists; vm_compute; reflexivity|]. split; [eexists; vm_compute; reflexivity|].
  split; intros I; vm_compute in I; intuition discriminate.
Qed.
(** A SADL file that names itself keeps its name and namespace; an OpenAPI document is named by its title or path; the
    namespace "example" of a Smithy model becomes none. *)
Theorem C87_names_refuted :
  (exists m, parse_sadl_file demo_ext (sadl_env_conf (cmd_files ["name its"; "namespace its.own"; "type A Int32"]) (fun s => s) "1" (import_conf "mine" "org.x" "" "" "")) 3 50 "a.sadl" = Ok m
     /\ sc_name (m_schema m) = "its" /\ sc_namespace (m_schema m) = "its.own")
  /\ (forall name_of load name ns service t base paths m, openapi_import_conf name_of load (import_conf name ns service t base) paths = Ok m ->
        sc_namespace (m_schema m) = "" /\ openapi_import_conf name_of load (import_conf "" "" service t base) paths = Ok m)
  /\ (exists m, smithy_import_conf demo_lib (import_conf "mine" "example" "" "" "") demo_ast = Ok m /\ sc_namespace (m_schema m) = "").
Proof.
  split; [eexists; split; [vm_compute; reflexivity|]; split; reflexivity|]. split; [|eexists; split; [vm_compute; reflexivity|reflexivity]].
  intros name_of load name ns service t base paths m E. split; [|exact E]. unfold openapi_import_conf in E.
  destruct paths as [|p [|q r]]; try discriminate. destruct (load p) as [[i doc]|]; [|discriminate]. unfold to_sadl, import_schema in E.
  apply rbind_Ok in E as (sch & E1 & E2). apply rbind_Ok in E1 as (tds & _ & E1). apply rbind_Ok in E1 as (hs & _ & E1). injection E1 as <-.
  destruct (new_model _) as [m'|x| |] eqn:M in E2; try discriminate. injection E2 as <-. apply new_model_inv in M as (-> & _). reflexivity.
Qed.
Print Assumptions C87_names_refuted.
