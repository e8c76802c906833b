(** The Java export as a whole: its settings, its files and their places.  Of the model only the records are used. *)
From Verif Require Import GoStr Value Schema SpecTime SpecMisc SpecModel SpecPV SpecTrace SpecGo SpecGen SpecGoServer SpecJava SpecJavaService.
From Verif Require Misc GoServer OpenApi JavaModel JavaService JavaExport.

(** ** Settings *)
(** the value of a setting that is a text, a flag: [v] is what is configured, [d] the default *)
Inductive text_setting (v : value) (d : string) : string -> Prop :=
| tx_default : v = VNil -> text_setting v d d
| tx_given s : v = VStr s \/ v = VPStr s -> text_setting v d s
| tx_other : v <> VNil -> (forall s, v <> VStr s /\ v <> VPStr s) -> text_setting v d "".
(** everything but false and the text "false" sets a flag *)
Inductive flag_setting (v : value) (d : bool) : bool -> Prop :=
| fl_default : v = VNil -> flag_setting v d d
| fl_off : v = VBool false \/ v = VStr "false" -> flag_setting v d false
| fl_on : v <> VNil -> v <> VBool false -> v <> VStr "false" -> flag_setting v d true.
(** the labels of a domain, the other way round *)
Definition reversed (a b : string) : Prop :=
  exists l, l <> [] /\ (forall x, In x l -> no_char "." x) /\ a = join "." l /\ b = join "." (rev l).
Definition domain_of (ns host d : string) : Prop := ns = "" /\ d = host \/ ns <> "" /\ reversed ns d.
Inductive package_of (v : value) (ns host : string) : string -> Prop :=
| po_given p : text_setting v "" p -> p <> "" -> package_of v ns host p
| po_namespace : text_setting v "" "" -> ns <> "" -> package_of v ns host ns
| po_host p : text_setting v "" "" -> ns = "" -> reversed host p -> package_of v ns host p.
Definition banner : string := line "//" +++ line "// Generated by sadl" +++ line "//".
Import JavaModel JavaService JavaExport.
Definition configured (conf : string -> value) (host : string) (sch : schema) (su : jsetup) : Prop :=
  let o := su_options su in let sv := su_service su in
  domain_of (sc_namespace sch) host (su_domain su)
  /\ package_of (conf "package") (sc_namespace sch) host (jo_package o)
  /\ (exists n, text_setting (conf "name") (sc_name sch) n /\ large_first n (jo_name o))
  /\ text_setting (conf "source") "src/main/java" (su_source su)
  /\ text_setting (conf "header") banner (jo_header o)
  /\ flag_setting (conf "lombok") false (jo_lombok o) /\ flag_setting (conf "immutable") true (jo_immutable o)
  /\ flag_setting (conf "instants") true (jo_instants o) /\ flag_setting (conf "json") false (jo_json o)
  /\ flag_setting (conf "service-exception") false (jo_service_exception o)
  /\ flag_setting (conf "model") true (su_model su) /\ flag_setting (conf "server") false (su_server su)
  /\ flag_setting (conf "client") false (su_client su) /\ flag_setting (conf "maven") false (su_maven su)
  /\ (su_model su = true -> text_setting (conf "model-package") (jo_package o +++ ".model") (jo_model_package o))
  /\ (su_server su = true -> text_setting (conf "server-package") (jo_package o +++ ".server") (sv_package sv)
                             /\ flag_setting (conf "example-implementation") false (sv_impl sv))
  /\ (su_client su = true -> text_setting (conf "client-package") (jo_package o +++ ".client") (sv_client_package sv)).
(** the settings that are looked at *)
Definition read_keys : list string :=
  ["domain"; "-"; "package"; "name"; "source"; "header"; "lombok"; "immutable"; "instants"; "json"; "service-exception"; "model"; "server"; "client"; "maven";
   "model-package"; "server-package"; "example-implementation"; "client-package"].

(** ** Names of the files: package and class *)
Inductive type_classes : list typedef -> list string -> Prop :=
| tc_nil : type_classes [] []
| tc_class td l n ns : with_class (td_spec td) -> large_first (td_name td) n -> type_classes l ns -> type_classes (td :: l) (n :: ns)
| tc_none td l ns : ~ with_class (td_spec td) -> type_classes l ns -> type_classes (td :: l) ns.
Definition action_classes (h : httpdef) (ns : list string) : Prop := exists a c, method_named h a c /\ ns = [c +++ "Request"; c +++ "Response"].
Section Names.
Context (sch : schema) (su : jsetup).
Definition model_names (ns : list (string * string)) : Prop :=
  let o := su_options su in
  exists ts is (stamp helper : bool), type_classes (sc_types sch) ts
    /\ (jo_name o = "" /\ is = [] \/ jo_name o <> "" /\ exists cs, Forall2 action_classes (sc_http sch) cs /\ is = jo_name o :: concat cs)
    /\ ns = map (pair (jo_model_package o)) (ts ++ is)
            ++ (if stamp then [(jo_package o, "Timestamp")] else []) ++ (if helper then [(jo_model_package o, "Util")] else [])
            ++ (if jo_service_exception o then [(jo_model_package o, "ServiceException")] else []).
Definition server_names (service : string) : list (string * string) :=
  (sv_package (su_service su), service +++ "Resources") :: (if sv_impl (su_service su) then [("", "Main"); ("", service +++ "Controller")] else []).
Definition client_names (service : string) : list (string * string) :=
  [(sv_client_package (su_service su), "ClientConfig"); (sv_client_package (su_service su), service +++ "Client")].
Definition export_names (ns : list (string * string)) : Prop :=
  exists ms service, (if su_model su then model_names ms else ms = []) /\ (su_server su = true \/ su_client su = true -> sc_name sch <> "" /\ large_first (sc_name sch) service)
    /\ ns = ms ++ (if su_server su then server_names service else []) ++ (if su_client su then client_names service else []).
End Names.

(** ** The parts *)
Section Parts.
Context (dec_text : decimal -> string) (sch : schema) (su : jsetup).
Notation o := (su_options su).
Notation sv := (su_service su).
Notation mgood := (java_good sch (jo_instants o) (jo_lombok o) (jo_immutable o) (jo_service_exception o) (jo_name o)).
Notation sshown := (server_shown dec_text (jo_instants o) (jo_name o) sch).
Notation cshown := (client_shown (jo_instants o) sch).
Notation mfiles := (java_files (fun i c s => Misc.format_comment i "// " s c false) GoServer.go_quote dec_text OpenApi.sprint (jo_lombok o) (jo_immutable o) (jo_json o) (jo_instants o) (jo_service_exception o)
    (jo_header o) (jo_package o) (jo_model_package o) (jo_name o) sch JavaModel.timestamp_text JavaModel.util_text JavaModel.exception_text).
Notation sfiles := (server_files GoServer.go_quote OpenApi.sprint (jo_immutable o) (jo_service_exception o) (sv_impl sv) (jo_header o) (jo_model_package o) (sv_package sv) (jo_name o) sch).
Notation cfiles := (client_files OpenApi.sprint (jo_header o) (jo_model_package o) (sv_client_package sv) sch).
(** each part that is switched on can be described *)
Definition export_good : Prop :=
  (su_model su = true -> mgood) /\ (su_server su = true -> exists service rs, sshown service rs) /\ (su_client su = true -> exists service cs, cshown service cs).
(** the files of the parts, in this order; [b]: the launcher knows of instants *)
Definition export_texts (fs : list jout) : Prop :=
  exists ms ss cs, fs = ms ++ ss ++ cs
    /\ (if su_model su then mfiles ms else ms = [])
    /\ (if su_server su then exists service rs b, sshown service rs /\ ss = sfiles b service rs /\ (uses_instant (jo_instants o) sch -> b = true) /\ (su_model su = false -> b = true -> uses_instant (jo_instants o) sch)
        else ss = [])
    /\ (if su_client su then exists service rs, cshown service rs /\ cs = cfiles service rs else cs = []).
End Parts.

(** ** pom.xml *)
Definition mentions (s part : string) : Prop := String.index 0 part s <> None.
(** its coordinates, what it depends on and what it runs *)
Definition pom_for (domain name : string) (lombok : bool) (t : string) : Prop :=
  exists a b c d, t = a +++ "<groupId>" +++ domain +++ "</groupId>" +++ newline +++ "  <artifactId>" +++ name +++ "</artifactId>" +++ b
                        +++ newline +++ "  <dependencies>" +++ newline +++ c +++ newline +++ "  </dependencies>" +++ d
    /\ ~ mentions a "<groupId>" /\ ~ mentions a "<artifactId>"
    /\ Forall (mentions c) ["jersey-container-jetty-http"; "jersey-hk2"; "jersey-media-json-jackson"; "jersey-common"]
    /\ (mentions c "<artifactId>lombok</artifactId>" <-> lombok = true)
    /\ mentions d "<mainClass>${my.mainClass}</mainClass>" /\ mentions d "<my.mainClass>Main</my.mainClass>".

(** ** Names of packages and classes that are plain names of directories and files *)
Definition package_parts (p : string) (l : list string) : Prop :=
  (p = "" /\ l = []) \/ (l <> [] /\ p = join "." l /\ forall x, In x l -> plain_component x /\ no_char "." x).
Definition plain_file (f : JavaModel.jfile) : Prop := (exists l, package_parts (JavaModel.jf_package f) l) /\ no_char "/" (JavaModel.jf_name f).
