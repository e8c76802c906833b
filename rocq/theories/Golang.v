(** golang/export_golang.go, golang_model.go: Go names of types, declared names and file placement. *)
From Verif Require Import GoStr Outcome Value Schema Model Misc Generator.

(** export_golang.go:219-225 (and generator.go:102-108): an index panic on the empty string *)
Definition go_capitalize (s : string) : result unit string :=
  match s with EmptyString => Panic | String c r => Ok (upper1 c +++ r) end.
Definition go_uncapitalize (s : string) : result unit string :=
  match s with EmptyString => Panic | String c r => Ok (lower1 c +++ r) end.

(** export_golang.go:112-119 *)
Definition adjoin (l : list string) (v : string) : list string := if str_mem v l then l else l ++ [v].

(** export_golang.go:169-217 nativeTypeName.  [name] is passed beside the spec.  The fuel bounds the
    nesting of [Array] and [Map]; [runtime] is gen.runtime. *)
Fixpoint native_type (m : model) (runtime : bool) (fuel : nat) (ts : typespec) (name : string) : result unit string :=
  match fuel with
  | O => OutOfFuel
  | S f =>
      if str_mem name ["Int8"; "Int16"; "Int32"; "Int64"; "Float32"; "Float64"; "Bool"; "String"] then go_uncapitalize name
      else if str_mem name ["Decimal"; "Timestamp"; "UnitValue"] then
        Ok (if runtime then "*sadl." +++ name else "*" +++ name)
      else if name =?s "Array" then
        match find_type m (ts_items ts) with
        | None => Panic
        | Some td => s <- native_type m runtime f (td_spec td) (ts_items ts) ;; Ok ("[]" +++ s)
        end
      else if name =?s "Map" then
        match find_type m (ts_items ts), find_type m (ts_keys ts) with
        | Some it, Some kt =>
            k <- native_type m runtime f (td_spec kt) (ts_keys ts) ;;
            i <- native_type m runtime f (td_spec it) (ts_items ts) ;; Ok ("map[" +++ k +++ "]" +++ i)
        | _, _ => Panic
        end
      else
        match find_type m name with
        | None => Panic
        | Some td => Ok (if ts_type (td_spec td) =?s "Struct" then "*" +++ name else name)
        end
  end.

(** golang_model.go: the package-level names a generated model file declares.
    28-51, 53-97: the interface and two types per action; 98-139: one type per definition, plus, by
    kind, the tag type and its constants (173-180), the constants and the table of an enum (214-223) and a
    conversion function (125-129). *)
Definition type_decls (td : typedef) : list string :=
  let n := td_name td in
  let t := ts_type (td_spec td) in
  if t =?s "Union" then
    (n +++ "VariantTag") :: map (fun v => n +++ "VariantTag" +++ capitalize (uv_name v)) (ts_variants (td_spec td)) ++ [n]
  else if t =?s "Enum" then n :: map ee_symbol (ts_elements (td_spec td)) ++ ["names" +++ n]
  else if str_mem t ["Int8"; "Int16"; "Int32"; "Int64"; "Float32"; "Float64"] then [n; n +++ "FromString"]
  else [n].
Definition action_decls (h : httpdef) : list string :=
  [capitalize (h_name h) +++ "Request"; capitalize (h_name h) +++ "Response"].
Definition model_decls (service : string) (sch : schema) : list string :=
  service :: flat_map action_decls (sc_http sch) ++ flat_map type_decls (sc_types sch).

(** export_golang.go:60-74: the directory of the package *)
Definition package_dir (outdir pkg : string) : string :=
  path_join [outdir; if smem "." pkg then join "/" (split "." pkg) else pkg].
(** export_golang.go:60-73: the package clause *)
Definition package_name (pkg : string) : string :=
  if smem "." pkg then last (split "." pkg) "" else pkg.
(** golang_model.go:24, golang_client.go:20, golang_server.go:19, export_golang.go:96; [name] is the
    configured or model name, [suffix] one of _model.go, _client.go, _server.go *)
Definition go_file (outdir pkg name suffix : string) : string :=
  path_join [package_dir outdir pkg; uncapitalize (capitalize name) +++ suffix].
