(** java/export_java.go: imports, packages and primitive types. *)
From Verif Require Import GoStr.

(** export_java.go:73-82: the result is filled from its end *)
Definition reverse_strings (l : list string) : list string := fold_left (fun filled v => v :: filled) l [].
(** export_java.go:84-86; also lines 101-103, the domain of a namespace *)
Definition default_package (domain : string) : string := join "." (reverse_strings (split "." domain)).
(** export_java.go:800-802 *)
Definition package_to_path (pkg : string) : string := join "/" (split "." pkg).

(** export_java.go:88-95 *)
Definition add_import (imports : list string) (r : string) : list string :=
  if str_mem r imports then imports else imports ++ [r].

(** sort.Strings: bytewise order; the result does not depend on the algorithm *)
Fixpoint insert_str (s : string) (l : list string) : list string :=
  match l with
  | [] => [s]
  | a :: r => if (s <=? a)%string then s :: l else a :: insert_str s r
  end.
Definition sort_strings (l : list string) : list string := fold_right insert_str [] l.

(** export_java.go:192-225: one generated class.  [requests] are the AddImport calls made while its body
    is generated; [gen.imports] is the state: it is not reset. *)
Definition pojo (imports requests : list string) : list string * list string :=
  let imports := sort_strings (fold_left add_import requests imports) in (imports, imports).
(** the import lists of the files generated for a sequence of classes *)
Fixpoint pojos (imports : list string) (rs : list (list string)) : list (list string) :=
  match rs with
  | [] => []
  | r :: rest => let '(st, f) := pojo imports r in f :: pojos st rest
  end.

(** export_java.go:804-823 *)
Definition primitive_type (n : string) : option string :=
  if n =?s "Bool" then Some "boolean" else if n =?s "Int8" then Some "byte"
  else if n =?s "Int16" then Some "short" else if n =?s "Int32" then Some "int"
  else if n =?s "Int64" then Some "long" else if n =?s "Float32" then Some "float"
  else if n =?s "Float64" then Some "double" else None.
