(** The command line tool: cmd/sadl/import.go, export.go and main.go, without its output and exit codes. *)
From Verif Require Import GoStr Outcome Value Data Schema Model OpenApi OpenApiImport SmithyAst GraphqlImport Scan Parser.

(** filepath.Ext: from the last dot of the last element *)
Fixpoint file_ext (path : string) : string :=
  match path with
  | EmptyString => ""
  | String c r => if Ascii.eqb c "." && negb (smem "." r) && negb (smem "/" r) then String c r else file_ext r
  end.
(** import.go:23-29 *)
Definition file_formats : list (string * list string) :=
  [ (".sadl", ["sadl"]); (".smithy", ["smithy"]); (".graphql", ["graphql"]);
    (".json", ["sadl"; "smithy"; "openapi"; "swagger"]); (".yaml", ["openapi"]) ].
Definition known_ext (path : string) : bool := match assoc (file_ext path) file_formats with Some _ => true | None => false end.

(** What an importer is called with.  SADL: parser.go:13-19 or 21-35. *)
Inductive import_call :=
| CParse (path : string)
| CLoad (path : string)
| CImport (format : string) (paths : list string).

Section Import.
(** The file system: os.Stat ([Some true]: a directory), and the names filepath.Walk comes by, in order, up to its
    first error, which is dropped (import.go:43-52).  [load]: LoadModel (parser.go:21-35).  [recognise f path]: what
    IsValidFile of the other importers says (smithy/, openapi/, and IsValidSwaggerFile). *)
Context (stat : string -> option bool) (walk : string -> list string)
        (load : string -> result unit model) (recognise : string -> string -> result unit bool).

(** import.go:31-57 *)
Fixpoint expand_paths (paths : list string) : result unit (list string) :=
  match paths with
  | [] => Ok []
  | path :: r =>
      here <- (if known_ext path then Ok [path]
               else match stat path with
                    | None => Err tt
                    | Some true => Ok (filter known_ext (walk path))
                    | Some false => Ok []
                    end) ;;
      rest <- expand_paths r ;; Ok (here ++ rest)
  end.
(** parser.go:37-46 *)
Definition sadl_valid (path : string) : result unit bool :=
  if has_suffix ".sadl" path then Ok true
  else if has_suffix ".json" path then
    match load path with Ok _ => Ok true | Err _ => Ok false | Panic => Panic | OutOfFuel => OutOfFuel end
  else Ok false.
(** graphql/import_graphql.go:14-19 *)
Definition graphql_valid (path : string) : result unit bool := Ok (has_suffix ".graphql" path).
Definition valid_file (format path : string) : result unit bool :=
  if format =?s "sadl" then sadl_valid path
  else if format =?s "graphql" then graphql_valid path
  else recognise format path.
(** import.go:59-90; [""]: none *)
Fixpoint first_valid (formats : list string) (path : string) : result unit string :=
  match formats with
  | [] => Ok ""
  | f :: r => b <- valid_file f path ;; if b then Ok f else first_valid r path
  end.
Definition valid_import_type (path : string) : result unit string :=
  match assoc (file_ext path) file_formats with
  | Some formats => first_valid formats path
  | None => Panic
  end.
(** import.go:98-111 *)
Fixpoint choose (chosen : string) (paths : list string) : result unit (string * list string) :=
  match paths with
  | [] => Ok (chosen, [])
  | path :: r =>
      f <- valid_import_type path ;;
      if f =?s "" then choose chosen r
      else if negb (chosen =?s "") && negb (f =?s chosen) then Err tt
      else '(c, ps) <- choose f r ;; Ok (c, path :: ps)
  end.
(** import.go:118-140 *)
Definition call_of (format : string) (paths : list string) : result unit import_call :=
  if format =?s "sadl" then
    match paths with
    | [path] => Ok (if has_suffix ".json" path then CLoad path else CParse path)
    | _ => Err tt
    end
  else if str_mem format ["smithy"; "swagger"; "openapi"; "graphql"] then Ok (CImport format paths)
  else Err tt.
(** import.go:92-116: [conf] is only handed on *)
Definition import_files (conf : data) (paths : list string) : result unit import_call :=
  flat <- expand_paths paths ;;
  '(f, ps) <- choose "" flat ;;
  if f =?s "" then Err tt else call_of f ps.
End Import.

(** ** Options *)
(** main.go:115-131: what the importers are told *)
Definition put_unless_empty (d : data) (k s : string) : data := if s =?s "" then d else d_put d k (VStr s).
Definition import_conf (name namespace service ftype base : string) : data :=
  put_unless_empty (put_unless_empty (put_unless_empty (put_unless_empty (put_unless_empty new_data
    "namespace" namespace) "service" service) "name" name) "type" ftype) "base" base.
(** The importers, told that.  graphql/import_graphql.go:51-59; smithy/import_smithy.go:31-45 (an empty namespace is
    replaced by "example", which ToSadl takes for empty: [smithy_schema]); openapi/import_openapi.go:41-69: the
    configuration is not looked at, the name is made of the path by [name_of].  parser.go:164-171: [base_name] is
    BaseFileName, the configuration is the environment's [e_name] and [e_namespace]. *)
Definition graphql_import_conf (read : string -> option string) (parse : string -> option (list gdefn)) (conf : data) (paths : list string) : result unit model :=
  gql_import read parse (as_string (d_get conf ["name"])) (as_string (d_get conf ["namespace"])) paths.
Definition smithy_import_conf (L : slib) (conf : data) (a : ast) : result unit model :=
  smithy_import L (as_string (d_get conf ["name"])) (as_string (d_get conf ["namespace"])) (as_string (d_get conf ["service"])) (as_string (d_get conf ["base"])) a.
Definition openapi_import_conf (name_of : string -> string) (load : string -> option (oinfo * oasdoc)) (conf : data) (paths : list string) : result unit model :=
  match paths with
  | [path] => match load path with Some (i, doc) => to_sadl (name_of path) i doc | None => Err tt end
  | _ => Err tt
  end.
Definition sadl_env_conf (files : string -> option (list token)) (base_name : string -> string) (version : string) (conf : data) : penv :=
  mkEnv files (as_string (d_get conf ["name"])) (as_string (d_get conf ["namespace"])) base_name version.
(** main.go:157-166: one -x option *)
Definition option_pair (kv : string) : string * value :=
  match split "=" kv with
  | k :: v :: _ => (k, VStr v)
  | _ => (kv, VBool true)
  end.
(** main.go:151-167: what the generator is told; data.go:161-163 for GetData *)
Definition generator_section (gen : string) : string := if gen =?s "java-server" then "java" else gen.
Definition generator_conf (conf : data) (gen : string) (force : bool) (opts : list string) : data :=
  fold_left (fun d kv => let '(k, v) := option_pair kv in d_put d k v) opts
    (d_put (as_data (d_get conf [generator_section gen])) "force-overwrite" (VBool force)).
(** export.go:26-65: the generator that runs and its configuration *)
Definition export_call (gen : string) (conf : data) : option (string * data) :=
  if str_mem gen ["json"; "sadl-ast"] then Some ("json", conf)
  else if str_mem gen ["java"; "java-model"] then Some ("java", conf)
  else if gen =?s "java-server" then Some ("java", d_put conf "server" (VBool true))
  else if gen =?s "java-client" then Some ("java", d_put conf "client" (VBool true))
  else if str_mem gen ["go"; "go-model"] then Some ("go", conf)
  else if gen =?s "go-server" then Some ("go", d_put conf "server" (VBool true))
  else if gen =?s "go-client" then Some ("go", d_put conf "client" (VBool true))
  else if str_mem gen ["sadl"; "smithy"; "smithy-ast"; "openapi"; "swagger-ui"; "graphql"; "http-trace"] then Some (gen, conf)
  else None.
(** main.go:136-173.  [conf]: the contents of the configuration file; [None]: there is none, or it cannot be read, of
    which only a message tells (145-147): a nil Data has no keys (data.go:82-89). *)
Definition run_generator (conf : option data) (gen : string) (force : bool) (opts : list string) : option (string * data) :=
  export_call gen (generator_conf (match conf with Some d => d | None => new_data end) gen force opts).
