(** The Go export as a whole: its settings and its files.  Of the model only the record of settings is used. *)
From Verif Require Import GoStr Value Schema Scalars SpecTime SpecMisc SpecModel SpecPV SpecTrace SpecGo SpecGoServer SpecGoClient SpecJavaExport.
From Verif Require GoExport.
Import GoExport.

(** ** Settings *)
(** the package: the one configured, else the namespace, else main *)
Inductive go_package_of (v : value) (ns : string) : string -> Prop :=
| gp_given p : text_setting v "" p -> p <> "" -> go_package_of v ns p
| gp_namespace : text_setting v "" "" -> ns <> "" -> go_package_of v ns ns
| gp_main : text_setting v "" "" -> ns = "" -> go_package_of v ns "main".
(** the name in the package clause: what follows the last dot *)
Definition clause_of (p c : string) : Prop := no_char "." c /\ (p = c \/ exists a, p = a +++ "." +++ c).
Definition go_configured (conf : string -> value) (sch : schema) (su : gosetup) : Prop :=
  (exists n, text_setting (conf "name") (sc_name sch) n /\ large_first n (gs_name su))
  /\ go_package_of (conf "package") (sc_namespace sch) (gs_package su)
  /\ flag_setting (conf "model") true (gs_model su) /\ flag_setting (conf "server") false (gs_server su)
  /\ flag_setting (conf "client") false (gs_client su) /\ flag_setting (conf "runtime") false (gs_runtime su).
Definition go_read_keys : list string := ["model"; "server"; "client"; "name"; "package"; "runtime"].

(** ** The three files *)
Section Files.
(** the constant texts of the generated files; see SpecGoServer.v for the others *)
Context (stamps decimals library : string) (sprint : value -> string) (instant : string -> timestamp -> Prop) (stamp : timestamp -> string -> Prop).
Context (sch : schema) (su : gosetup).
Definition model_file (s : string) : Prop :=
  exists c imports ds, clause_of (gs_package su) c /\ s = file_text stamps decimals c imports ds /\ file_shown sch (gs_runtime su) (gs_name su) ds.
Definition server_file (s : string) : Prop :=
  exists c imports service small hs, clause_of (gs_package su) c /\ s = server_text library c imports service (small +++ "Adaptor") hs
    /\ large_first (gs_name su) service /\ small_first (gs_name su) small /\ Forall2 (handler_shown sprint instant stamp sch (gs_runtime su)) (sc_http sch) hs.
Definition client_file (s : string) : Prop :=
  exists c imports service cs, clause_of (gs_package su) c /\ s = client_text c imports (service +++ "Client") cs
    /\ large_first (gs_name su) service /\ Forall2 (method_shown sch (gs_runtime su)) (sc_http sch) cs.
End Files.
(** what is at a place after writing [s] there: without force nothing is overwritten *)
Definition left_at (force : bool) (old : option string) (s : string) : option string :=
  if force then Some s else match old with Some c => Some c | None => Some s end.
