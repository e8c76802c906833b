(** httptrace/export_http_examples.go: the request line of a trace. *)
From Verif Require Import GoStr.

(** export_http_examples.go:143-161 *)
Definition strip_missing (uri : string) : string :=
  match cut "?" uri with
  | None => uri
  | Some (path, query) =>
      match filter (fun item => negb (has_suffix "=" item)) (split "&" query) with
      | [] => path
      | items => path +++ "?" +++ join "&" items
      end
  end.
