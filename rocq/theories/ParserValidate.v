(** parser.go: Validate and its helpers, ensureRequiredParams, parameterSource; model.go: FindExampleType. *)
From Verif Require Import GoStr Outcome Value Schema Scalars Time Model Misc.

(** Classes of the errors returned by parser.go:2060-2462; the texts are not modelled. *)
Inductive pverror :=
| PVPath
| PVUndefined (n : string)
| PVNotNumeric | PVNotUnit
| PVPatternAndValues
| PVDefaultOnRequired
| PVBadValue (e : verror)
| PVBody
| PVTarget (n : string)
| PVNotObject
| PVMissing (n : string).
Definition pvres := result pverror unit.

(** [for _, x := range l { err = f(x); if err != nil { return err } }] *)
Fixpoint each {A E} (f : A -> result E unit) (l : list A) : result E unit :=
  match l with [] => Ok tt | x :: r => _ <- f x ;; each f r end.

(** parser.go:2241-2262: the loop with its [inParam] flag.  It ranges over runes, but only
    looks for three ASCII characters, which are never part of another rune. *)
Fixpoint scan_template (in_param : bool) (s : string) : bool :=
  match s with
  | EmptyString => negb in_param
  | String c r =>
      if Ascii.eqb c "{" then negb in_param && scan_template true r
      else if Ascii.eqb c "}" then in_param && scan_template false r
      else if Ascii.eqb c "/" then negb in_param && scan_template in_param r
      else scan_template in_param r
  end.
(** parser.go:2235-2239 *)
Definition before_query (path : string) : string :=
  match cut "?" path with Some (a, _) => a | None => path end.
Definition validate_http_path (path : string) : bool := scan_template false (before_query path).

(** parser.go:823-845 parameterSource *)
Inductive source := FromHeader (h : string) | FromPath | FromQuery (k : string) | FromBody.
Fixpoint find_query (mtch : string) (l : list string) : option string :=
  match l with
  | [] => None
  | q :: r => match split "=" q with
              | k :: v :: _ => if v =?s mtch then Some k else find_query mtch r
              | _ => find_query mtch r
              end
  end.
Definition parameter_source (template name header : string) : source :=
  if negb (header =?s "") then FromHeader header
  else
    let '(path, query) := match cut "?" template with Some (a, b) => (a, b) | None => (template, "") end in
    let mtch := "{" +++ name +++ "}" in
    if contains mtch path then FromPath
    else match find_query mtch (split "&" query) with
         | Some k => FromQuery k
         | None => FromBody
         end.

Definition set_required (ps : paramspec) : paramspec :=
  let f := ps_field ps in
  mkParam (ps_header ps) (ps_query ps) (ps_path ps)
    (mkField (fd_name f) (fd_comment f) (fd_annos f) true (fd_default f) (fd_spec f)).
(** parser.go:620-637 ensureRequiredParams *)
Definition ensure_required_params (h : httpdef) : httpdef :=
  mkHttp (h_name h) (h_resource h) (h_comment h) (h_annos h) (h_method h) (h_path h)
    (map (fun i => if (ps_query i =?s "") && negb (ps_header i =?s "") then set_required i else i) (h_inputs h))
    (option_map (fun x =>
       if negb (xp_status x =? 204)%Z && negb (xp_status x =? 304)%Z
       then mkExp (map (fun o => if ps_header o =?s "" then set_required o else o) (xp_outputs x))
              (xp_status x) (xp_comment x) (xp_annos x)
       else x) (h_expected h))
    (h_exceptions h).

Section PV.
Variable X : ext.
Variable m : model.

(** a lookup that must succeed *)
Definition need (n : string) : result pverror typedef :=
  match find_type m n with Some td => Ok td | None => Err (PVUndefined n) end.
(** ValidateAgainstTypeSpec; the context only goes into the message *)
Definition conforms (fuel : nat) (ts : typespec) (v : value) : pvres :=
  match validate_spec X m fuel [] ts v with
  | Ok _ => Ok tt
  | Err e => Err (PVBadValue e)
  | Panic => Panic
  | OutOfFuel => OutOfFuel
  end.

(** parser.go:2359-2367 *)
Definition validate_reference (td : typedef) : pvres :=
  if ts_reference (td_spec td) =?s "" then Ok tt
  else _ <- need (ts_reference (td_spec td)) ;; Ok tt.
(** parser.go:2350-2357 *)
Definition validate_string_def (td : typedef) : pvres :=
  if negb (ts_pattern (td_spec td) =?s "") && match ts_values (td_spec td) with Some _ => true | None => false end
  then Err PVPatternAndValues
  else validate_reference td.
(** parser.go:2369-2385 *)
Definition validate_unit_def (td : typedef) : pvres :=
  vt <- need (ts_value (td_spec td)) ;;
  if negb (str_mem (ts_type (td_spec vt)) numeric_types) then Err PVNotNumeric
  else
    ut <- need (ts_unit (td_spec td)) ;;
    if str_mem (ts_type (td_spec ut)) ["String"; "Enum"] then Ok tt else Err PVNotUnit.
(** the [if x != "" && x != "Any"] lookups of parser.go:2394-2416 *)
Definition need_param (n : string) : pvres :=
  if (n =?s "") || (n =?s "Any") then Ok tt else _ <- need n ;; Ok tt.
(** parser.go:2389-2429 *)
Definition validate_field (fuel : nat) (f : fielddef) : pvres :=
  let ts := fd_spec f in
  _ <- need (ts_type ts) ;;
  _ <- (if ts_type ts =?s "Array" then need_param (ts_items ts)
        else if ts_type ts =?s "Map" then _ <- need_param (ts_keys ts) ;; need_param (ts_items ts)
        else Ok tt) ;;
  _ <- (match fd_default f with
        | VNil => Ok tt
        | d => if fd_required f then Err PVDefaultOnRequired else conforms fuel ts d
        end) ;;
  if match ts_values ts with Some _ => true | None => false end && negb (ts_pattern ts =?s "")
  then Err PVPatternAndValues else Ok tt.
(** parser.go:2387-2431 *)
Definition validate_struct_def (fuel : nat) (td : typedef) : pvres := each (validate_field fuel) (ts_fields (td_spec td)).
(** parser.go:2433-2443 *)
Definition validate_array_def (td : typedef) : pvres :=
  if ts_items (td_spec td) =?s "Any" then Ok tt else _ <- need (ts_items (td_spec td)) ;; Ok tt.
(** parser.go:2445-2462 *)
Definition validate_map_def (td : typedef) : pvres :=
  if ts_items (td_spec td) =?s "Any" then Ok tt
  else _ <- need (ts_items (td_spec td)) ;;
       if ts_keys (td_spec td) =?s "String" then Ok tt else _ <- need (ts_keys (td_spec td)) ;; Ok tt.
(** parser.go:2062-2080 *)
Definition validate_typedef (fuel : nat) (td : typedef) : pvres :=
  let t := ts_type (td_spec td) in
  if t =?s "Struct" then validate_struct_def fuel td
  else if t =?s "Array" then validate_array_def td
  else if t =?s "Map" then validate_map_def td
  else if t =?s "UnitValue" then validate_unit_def td
  else if t =?s "String" then validate_string_def td
  else if t =?s "UUID" then validate_reference td
  else Ok tt.

(** parser.go:2173-2202 and 2204-2233, for the list of inputs or outputs.  [m] is a Go map: the
    entries are visited in any order, which can only change which error is reported. *)
Definition validate_params_example (fuel : nat) (params : list paramspec) (v : value) : pvres :=
  match v with
  | VMap l =>
      _ <- each (fun kv => each (fun p =>
             if fd_name (ps_field p) =?s fst kv
             then td <- need (ts_type (fd_spec (ps_field p))) ;; conforms fuel (td_spec td) (snd kv)
             else Ok tt) params) l ;;
      each (fun p => if fd_required (ps_field p) && negb (str_mem (fd_name (ps_field p)) (map fst l))
                     then Err (PVMissing (fd_name (ps_field p))) else Ok tt) params
  | _ => Err PVNotObject
  end.

(** parser.go:2133-2139: the last field of that name *)
Fixpoint last_field (n : string) (fs : list fielddef) (acc : option typespec) : option typespec :=
  match fs with
  | [] => acc
  | f :: r => last_field n r (if fd_name f =?s n then Some (fd_spec f) else acc)
  end.
(** parser.go:2122-2142 *)
Definition example_spec (target : string) : option typespec :=
  match find_type m target with
  | Some td => Some (td_spec td)
  | None =>
      match cut "." target with
      | Some (t, f) =>
          if t =?s "" then None
          else match find_type m t with
               | Some td => if ts_type (td_spec td) =?s "Struct" then last_field f (ts_fields (td_spec td)) None else None
               | None => None
               end
      | None => None
      end
  end.
(** the part of [s] before a suffix of [n] bytes *)
Definition drop_last (n : nat) (s : string) : string := stake (String.length s - n) s.
(** parser.go:2118-2171; [hact.Expected] may be nil: 2211 then dereferences nil (2225 in case of an empty object) *)
Definition validate_example (fuel : nat) (ex : exampledef) : pvres :=
  match example_spec (ex_target ex) with
  | Some ts => conforms fuel ts (ex_example ex)
  | None =>
      if has_suffix "Request" (ex_target ex) then
        match find_http m (uncapitalize (drop_last 7 (ex_target ex))) with
        | None => Err (PVTarget (ex_target ex))
        | Some h => validate_params_example fuel (h_inputs h) (ex_example ex)
        end
      else if has_suffix "Response" (ex_target ex) then
        match find_http m (uncapitalize (drop_last 8 (ex_target ex))) with
        | None => Err (PVTarget (ex_target ex))
        | Some h =>
            match ex_example ex with
            | VMap _ =>
                match h_expected h with
                | None => Panic
                | Some x => validate_params_example fuel (xp_outputs x) (ex_example ex)
                end
            | _ => Err PVNotObject
            end
        end
      else Err (PVTarget (ex_target ex))
  end.

(** parser.go:2273-2289, 2296-2311: types are defined, and at most one parameter is a body; [body]
    says which parameters are, [allowed] whether there may be one, [cur] is [bodyParam]. *)
Fixpoint check_params (body : paramspec -> bool) (allowed : bool) (cur : string) (l : list paramspec) : pvres :=
  match l with
  | [] => Ok tt
  | p :: r =>
      _ <- need (ts_type (fd_spec (ps_field p))) ;;
      if body p then
        if allowed then
          if negb (cur =?s "") then Err PVBody
          else check_params body allowed (fd_name (ps_field p)) r
        else Err PVBody
      else check_params body allowed cur r
  end.
Definition input_is_body (p : paramspec) : bool :=
  negb (ps_path p) && (ps_query p =?s "") && (ps_header p =?s "").
Definition output_is_body (p : paramspec) : bool := ps_header p =?s "".
(** parser.go:2266-2319 *)
Definition validate_http (h : httpdef) : pvres :=
  if negb (validate_http_path (h_path h)) then Err PVPath
  else
    _ <- check_params input_is_body (str_mem (h_method h) ["POST"; "PUT"; "PATCH"]) "" (h_inputs h) ;;
    match h_expected h with
    | None => Ok tt
    | Some x =>
        _ <- check_params output_is_body (negb (xp_status x =? 204)%Z && negb (xp_status x =? 304)%Z) "" (xp_outputs x) ;;
        each (fun e => _ <- need (xc_type e) ;; Ok tt) (h_exceptions h)
    end.

(** parser.go:2060-2116.  validateOperation (2345-2348) accepts everything.  Parser extensions
    are not modelled (none are registered by ParseSadlFile). *)
Definition parser_validate (fuel : nat) : pvres :=
  let sch := m_schema m in
  _ <- each (validate_typedef fuel) (sc_types sch) ;;
  _ <- each (validate_example fuel) (sc_examples sch) ;;
  each validate_http (sc_http sch).

(** model.go:511-593 FindExampleType.  [Ok None]: the code returns nil, nil. *)
Definition find_param (n : string) (l : list paramspec) : option typespec :=
  match find (fun p => fd_name (ps_field p) =?s n) l with
  | Some p => Some (fd_spec (ps_field p))
  | None => None
  end.
Fixpoint walk_fields (ts : typespec) (l : list string) : result pverror (option typespec) :=
  match l with
  | [] => Ok (Some ts)
  | f :: r =>
      if ts_type ts =?s "Struct" then
        match find (fun fd => fd_name fd =?s f) (ts_fields ts) with
        | Some fd => walk_fields (fd_spec fd) r
        | None => Err (PVTarget f)
        end
      else Err (PVTarget f)
  end.
Definition find_example_type (target : string) : result pverror (option typespec) :=
  match split "." target with
  | [] => Err (PVTarget target)   (* split never gives an empty list *)
  | t :: path =>
      match find_type m t with
      | Some td => walk_fields (td_spec td) path
      | None =>
          let via (params : list paramspec) :=
            match path with
            | [] => Ok None
            | f :: r => match find_param f params with
                        | Some ts => walk_fields ts r
                        | None => Err (PVTarget f)
                        end
            end in
          if has_suffix "Request" t then
            match find_http m (uncapitalize (drop_last 7 t)) with
            | None => Err (PVTarget t)
            | Some h => via (h_inputs h)
            end
          else if has_suffix "Response" t then
            match find_http m (uncapitalize (drop_last 8 t)) with
            | None => Err (PVTarget t)
            | Some h => match h_expected h with
                        | Some x => via (xp_outputs x)
                        | None => match path with [] => Ok None | _ => Panic end
                        end
            end
          else Err (PVTarget t)
      end
  end.
End PV.
