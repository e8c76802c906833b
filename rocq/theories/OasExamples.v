(** openapi/export_openapi.go 246-345: the examples of a model in its OpenAPI document. *)
From Verif Require Import GoStr Outcome Value Schema Misc Model ParserValidate OpenApi.

(** Where an [Example] or [Examples] field stands: on a schema of the components, on the JSON of the request body
    of the operation of a path and method, on the parameter of that operation with that number, on the JSON of the
    response of that operation with that status. *)
Inductive place :=
| AtType (n : string)
| AtBody (p mth : string)
| AtParam (p mth : string) (i : nat)
| AtAnswer (p mth status : string).

(** The examples of a document: the place, the name ("" for the field [Example], otherwise the key in the map
    [Examples]) and the value; the last entry of a place and name is the one that stands (an assignment
    overwrites the one before). *)
Definition shown_examples := list (place * string * value).

(** export_openapi.go:347-365: the operation of a path that is looked at.  Head and Patch are never set by
    the exporter (112-131). *)
Definition first_op (pi : pathitem) : option (string * ooperation) :=
  match get "GET" pi with
  | Some o => Some ("GET", o)
  | None => match get "PUT" pi with
    | Some o => Some ("PUT", o)
    | None => match get "DELETE" pi with
      | Some o => Some ("DELETE", o)
      | None => match get "POST" pi with
        | Some o => Some ("POST", o)
        | None => None
        end
      end
    end
  end.
(** export_openapi.go:347-370 FindOperation, with the paths in the order in which the Go map gives them *)
Fixpoint find_operation (paths : list (string * pathitem)) (id : string) : result unit (option (string * string * ooperation)) :=
  match paths with
  | [] => Ok None
  | (p, pi) :: r =>
      match first_op pi with
      | None => Panic
      | Some (mth, o) => if oo_id o =?s id then Ok (Some (p, mth, o)) else find_operation r id
      end
  end.

(** export_openapi.go:276-290 and 319-333: the parameters of that name; [i] is the number of the first one *)
Fixpoint at_params (p mth name k : string) (v : value) (ps : list oparam) (i : nat) : shown_examples :=
  match ps with
  | [] => []
  | q :: r => (if op_pname q =?s k then [(AtParam p mth i, name, v)] else []) ++ at_params p mth name k v r (S i)
  end.

(** export_openapi.go:262-291 *)
Fixpoint request_entries (p mth name : string) (o : ooperation) (l : list (string * value)) (acc : shown_examples) : result unit shown_examples :=
  match l with
  | [] => Ok acc
  | (k, v) :: r =>
      if k =?s "body" then
        match oo_body o with
        | None => Panic
        | Some _ => request_entries p mth name o r (acc ++ [(AtBody p mth, name, v)])
        end
      else request_entries p mth name o r (acc ++ at_params p mth name k v (oo_params o) 0)
  end.
(** export_openapi.go:299-334; [status]: of the expected response of the action of that name (model.FindHttp),
    [None] where that is nil.  The entries that are not the body go to the parameters of the operation, as for
    requests. *)
Fixpoint response_entries (p mth name : string) (o : ooperation) (status : option string) (l : list (string * value)) (acc : shown_examples)
  : result unit shown_examples :=
  match l with
  | [] => Ok acc
  | (k, v) :: r =>
      if k =?s "body" then
        match status with
        | None => Panic
        | Some s =>
            match get s (oo_responses o) with
            | None => Panic
            | Some x =>
                match or_body x with
                | None => Panic
                | Some _ => response_entries p mth name o status r (acc ++ [(AtAnswer p mth s, name, v)])
                end
            end
        end
      else response_entries p mth name o status r (acc ++ at_params p mth name k v (oo_params o) 0)
  end.
Definition expected_status (m : model) (n : string) : option string :=
  match find_http m n with
  | Some h => match h_expected h with Some e => Some (sprint (xp_status e)) | None => None end
  | None => None
  end.

(** export_openapi.go:247-343: one example; [paths] are the paths of the document as the range over the map gives
    them this time.  The entries of an object are met in the order of the list (a Go map: any order). *)
Definition export_example (m : model) (doc : oasdoc) (paths : list (string * pathitem)) (ex : exampledef) (acc : shown_examples)
  : result unit shown_examples :=
  let t := ex_target ex in
  match get t (od_schemas doc) with
  | Some _ => Ok (acc ++ [(AtType t, "", ex_example ex)])
  | None =>
      if has_suffix "Request" t then
        o <- find_operation paths (uncapitalize (drop_last 7 t)) ;;
        match o with
        | None => Ok acc
        | Some (p, mth, o) =>
            match ex_example ex with
            | VMap l => request_entries p mth (ex_name ex) o l acc
            | _ => Panic
            end
        end
      else if has_suffix "Response" t then
        o <- find_operation paths (uncapitalize (drop_last 8 t)) ;;
        match o with
        | None => Panic
        | Some (p, mth, o) =>
            match ex_example ex with
            | VMap l => response_entries p mth (ex_name ex) o (expected_status m (uncapitalize (drop_last 8 t))) l acc
            | _ => Panic
            end
        end
      else Ok acc
  end.
(** export_openapi.go:247-344.  [order i]: the paths as they are met for the example with that number. *)
Fixpoint export_examples (m : model) (doc : oasdoc) (order : nat -> list (string * pathitem)) (i : nat) (exs : list exampledef) (acc : shown_examples)
  : result unit shown_examples :=
  match exs with
  | [] => Ok acc
  | ex :: r => acc' <- export_example m doc (order i) ex acc ;; export_examples m doc order (S i) r acc'
  end.
