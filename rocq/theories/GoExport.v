(** golang/export_golang.go: the Go export as a whole. *)
From Verif Require Import GoStr Outcome Value Data Schema Time Model Misc Generator Golang GoModel GoServer GoClient.

(** export_golang.go:33-50: of the generator's fields those that are set once; [gs_package] is the package before it is cut at
    its last dot (the local variable [pkg] of line 60) *)
Record gosetup := mkGS {
  gs_name : string; gs_package : string; gs_model : bool; gs_server : bool; gs_client : bool; gs_runtime : bool }.
(** export_golang.go:52-83 without the directory, which is made in [go_export] *)
Definition go_setup (sch : schema) (conf : data) : gosetup :=
  let p := config_string conf "package" "" in
  let pkg := if p =?s "" then (if sc_namespace sch =?s "" then "main" else sc_namespace sch) else p in
  mkGS (capitalize (config_string conf "name" (sc_name sch))) pkg
    (config_bool conf "model" true) (config_bool conf "server" false) (config_bool conf "client" false) (config_bool conf "runtime" false).
(** golang_model.go:24, golang_server.go:19, golang_client.go:20, export_golang.go:74, 96: where a file goes *)
Definition go_place (outdir : string) (su : gosetup) (suffix : string) : string :=
  path_join [package_dir outdir (gs_package su); uncapitalize (gs_name su) +++ suffix].

Section Export.
(** see GoServer.v; [force], [i]: see Generator.v *)
Context (sprint : value -> string) (parse_time : string -> option timestamp) (force : bool) (i : io).
(** golang_model.go:10-26, golang_server.go:12-22, golang_client.go:13-22: nothing is done after an error; [r] is the text of the
    file.  The buffer of the generator is left out. *)
Definition go_part (on : bool) (r : result unit string) (path : string) (g : gstate) : result unit gstate :=
  if negb on || g_err g then Ok g
  else match r with
       | Ok s => Ok (write_guarded force path s i g)
       | Err _ => Ok (mkGen true (g_text g) (g_fs g))
       | Panic => Panic
       | OutOfFuel => OutOfFuel
       end.
(** export_golang.go:15-29 with 75-80; [made]: the directory of the package could be made *)
Definition go_export (made : bool) (outdir : string) (m : model) (su : gosetup) (g : gstate) : result unit gstate :=
  let pkg := package_name (gs_package su) in
  g1 <- go_part (gs_model su) (create_model m (gs_runtime su) (gs_name su) pkg) (go_place outdir su "_model.go") (ensure_dir made g) ;;
  g2 <- go_part (gs_server su) (create_server sprint parse_time m (gs_runtime su) (gs_name su) pkg) (go_place outdir su "_server.go") g1 ;;
  go_part (gs_client su) (create_client m (gs_runtime su) (gs_name su) pkg) (go_place outdir su "_client.go") g2.
End Export.
