(** openapi/model.go: the checks of a document that is read. *)
From Verif Require Import GoStr Outcome Value Schema Misc Model OpenApi OpenApiImport.

(** model.go:78-87: what Validate looks at; [None]: a nil pointer or map.  The version of OpenAPI is kept in [oinfo] (oi_openapi), so
    that a document without info has none here; Validate refuses it either way. *)
Record oasfile := mkOF { of_info : option oinfo; of_paths : option (list (string * pathitem)) }.
(** model.go:53-66 *)
Definition validate_info (i : oinfo) : bool :=
  negb (oi_title i =?s "") && negb (oi_version i =?s "") && match oi_license i with Some (n, _) => negb (n =?s "") | None => true end.
(** model.go:68-76 *)
Definition validate_paths (ps : list (string * pathitem)) : bool := forallb (fun '(k, _) => has_prefix "/" k) ps.
(** model.go:32-51; [true]: no error *)
Definition validate_oas (d : oasfile) : bool :=
  match of_info d with
  | None => false
  | Some i => negb (oi_openapi i =?s "") && validate_info i && match of_paths d with None => false | Some ps => validate_paths ps end
  end.
(** export_openapi.go:12-18 and 33-76, import_openapi.go:22-39: the document written and read again.  The map of paths is made (75)
    and written even if empty (model.go:405-407); texts that are empty are left out and come back empty. *)
Definition written_again (sch : schema) (doc : oasdoc) : oasfile := mkOF (Some (export_info sch)) (Some (od_paths doc)).
