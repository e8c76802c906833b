(** model.go: NewModel, FindType, FindHttp, Validate and its helpers. *)
From Verif Require Import GoStr Outcome Value Schema Scalars Time.

(** model.go:12-17; [Extensions] is not modelled. *)
Record model := mkModel {
  m_schema : schema;
  m_types : list (string * typedef);   (* typeIndex *)
  m_http : list (string * httpdef) }.  (* httpIndex *)

Inductive model_error := DuplicateType (n : string) | DuplicateHttp (n : string).

(** model.go:25-27 *)
Definition base_typedef (n : string) : typedef := mkTD n "" [] (ts_of n).
Definition base_index : list (string * typedef) := map (fun n => (n, base_typedef n)) base_types.

(** model.go:28-33 *)
Fixpoint add_types (idx : list (string * typedef)) (l : list typedef)
  : result model_error (list (string * typedef)) :=
  match l with
  | [] => Ok idx
  | td :: r =>
      match assoc (td_name td) idx with
      | Some _ => Err (DuplicateType (td_name td))
      | None => add_types (assoc_set (td_name td) td idx) r
      end
  end.

(** model.go:34-39 *)
Fixpoint add_http (idx : list (string * httpdef)) (l : list httpdef)
  : result model_error (list (string * httpdef)) :=
  match l with
  | [] => Ok idx
  | h :: r =>
      match assoc (h_name h) idx with
      | Some _ => Err (DuplicateHttp (h_name h))
      | None => add_http (assoc_set (h_name h) h idx) r
      end
  end.

(** model.go:19-41 NewModel *)
Definition new_model (sch : schema) : result model_error model :=
  ti <- add_types base_index (sc_types sch) ;;
  hi <- add_http [] (sc_http sch) ;;
  Ok (mkModel sch ti hi).

(** model.go:43-50, 52-59 *)
Definition find_type (m : model) (n : string) : option typedef := assoc n (m_types m).
Definition find_http (m : model) (n : string) : option httpdef := assoc n (m_http m).

(** ** Validation errors: a class and the position the message names, if it names one. *)
Inductive step := PField (f : string) | PIndex (i : nat) | PKey (k : string) | PValue | PUnit.

Inductive eclass :=
| EUndefinedType (n : string)
| ENoSuchType (n : string)
| ENotBool | ENotUUID | ENotUnitValue | EBadDecimal | ENotEnum | ENotNumber
| EBelowMin | EAboveMax
| EUndefinedField (k : string) | EMissingField (f : string) | ENotStruct
| ENotArray | ETooLarge | ETooSmall
| ENotString | EMinSize | EMaxSize | EValues | EBadPattern | EPattern
| ETimestamp.

Record verror := mkVE { ve_class : eclass; ve_at : option (list step) }.
Definition vres := result verror unit.
Definition fail_at (ctx : list step) (c : eclass) : vres := Err (mkVE c (Some ctx)).
(** errors whose text has no context *)
Definition fail_no (c : eclass) : vres := Err (mkVE c None).

(** model.go:486-492, 185 *)
Definition numeric_types : list string :=
  ["Int8"; "Int16"; "Int32"; "Int64"; "Float32"; "Float64"; "Decimal"].

Definition size_lt (n : nat) (o : option Z) : bool :=   (* len < *min *)
  match o with Some z => (Z.of_nat n <? z)%Z | None => false end.
Definition size_gt (n : nat) (o : option Z) : bool :=   (* len > *max *)
  match o with Some z => (z <? Z.of_nat n)%Z | None => false end.

(** model.go:210-216 *)
Definition validate_bool (ctx : list step) (v : value) : vres :=
  match v with VBool _ | VPBool _ => Ok tt | _ => fail_at ctx ENotBool end.

(** the [var s string; switch ...] idiom of ValidateUUID / ValidateEnum *)
Definition string_or_empty (v : value) : string :=
  match v with VStr s | VPStr s => s | _ => EmptyString end.

(** model.go:218-235 *)
Definition validate_uuid (ctx : list step) (v : value) : vres :=
  match v with
  | VUuid _ => Ok tt
  | _ =>
      let s := string_or_empty v in
      if negb (s =?s "") && negb (parse_uuid s =?s "") then Ok tt else fail_at ctx ENotUUID
  end.

(** model.go:258-274 *)
Definition validate_enum (ctx : list step) (ts : typespec) (v : value) : vres :=
  let s := string_or_empty v in
  if negb (s =?s "") && str_mem s (map ee_symbol (ts_elements ts)) then Ok tt else fail_at ctx ENotEnum.

(** model.go:283-300: the limits ValidateNumber compares with.  The constants of package math
    are untyped, so they arrive in DecimalValue as Go [int]. *)
Definition number_limits (ts : typespec) : option decimal * option decimal :=
  let t := ts_type ts in
  if str_mem t ["Decimal"; "Float64"; "Float32"] then
    (decimal_value (ts_min ts) DaNil, decimal_value (ts_max ts) DaNil)
  else if t =?s "Int64" then
    (decimal_value (ts_min ts) (DaInt (- 2 ^ 63)), decimal_value (ts_max ts) (DaInt (2 ^ 63 - 1)))
  else if t =?s "Int32" then
    (decimal_value (ts_min ts) (DaInt (- 2 ^ 31)), decimal_value (ts_max ts) (DaInt (2 ^ 31 - 1)))
  else if t =?s "Int16" then
    (decimal_value (ts_min ts) (DaInt (- 2 ^ 15)), decimal_value (ts_max ts) (DaInt (2 ^ 15 - 1)))
  else if t =?s "Int8" then
    (decimal_value (ts_min ts) (DaInt (- 2 ^ 7)), decimal_value (ts_max ts) (DaInt (2 ^ 7 - 1)))
  else (None, None).

(** model.go:276-319 *)
Definition validate_number (ctx : list step) (ts : typespec) (v : value) : vres :=
  match v with
  | VDec n =>
      let '(lo, hi) := number_limits ts in
      match (match lo with Some d => match dec_cmp n d with Lt => true | _ => false end | None => false end) with
      | true => fail_at ctx EBelowMin
      | false =>
          match (match hi with Some d => match dec_cmp n d with Gt => true | _ => false end | None => false end) with
          | true => fail_at ctx EAboveMax
          | false => Ok tt
          end
      end
  | _ => fail_at ctx ENotNumber
  end.

(** model.go:418-456 *)
Definition validate_string (X : ext) (ts : typespec) (v : value) : vres :=
  match v with
  | VPStr s | VStr s =>
      if size_lt (String.length s) (ts_minsize ts) then fail_no EMinSize
      else if size_gt (String.length s) (ts_maxsize ts) then fail_no EMaxSize
      else match ts_values ts with
           | Some vs => if str_mem s vs then Ok tt else fail_no EValues
           | None =>
               if ts_pattern ts =?s "" then Ok tt
               else match x_regex X (ts_pattern ts) with
                    | None => fail_no EBadPattern
                    | Some f => if f s then Ok tt else fail_no EPattern
                    end
           end
  | _ => fail_no ENotString
  end.

(** model.go:458-469 *)
Definition validate_timestamp (X : ext) (v : value) : vres :=
  match v with
  | VTime _ => Ok tt
  | VPStr s => match parse_timestamp (x_comma X) (x_long X) s with
               | Some _ => Ok tt
               | None => fail_no ETimestamp
               end
  | _ => fail_no ETimestamp
  end.

(** model.go:321-328 *)
Definition is_struct_field (ts : typespec) (n : string) : bool :=
  str_mem n (map fd_name (ts_fields ts)).

Section Validate.
Variable X : ext.
Variable m : model.

(** One unfolding of the recursion; [rec] is ValidateAgainstTypeSpec itself. *)
Section Step.
Variable rec : list step -> typespec -> value -> vres.

(** model.go:159-168 Validate (context only affects messages) *)
Definition validate_named (ctx : list step) (n : string) (v : value) : vres :=
  match find_type m n with
  | None => fail_no (EUndefinedType n)
  | Some td => rec ctx (td_spec td) v
  end.

(** model.go:237-256: the first space must be at index 3 or later, only *string is looked at *)
Definition validate_unitvalue (ctx : list step) (ts : typespec) (v : value) : vres :=
  match v with
  | VPStr s =>
      match cut " " s with
      | Some (a, u) =>
          if 3 <=? String.length a then
            match x_decimal X a with
            | None => fail_no EBadDecimal
            | Some d =>
                _ <- validate_named (ctx ++ [PValue]) (ts_value ts) (VDec d) ;;
                validate_named (ctx ++ [PUnit]) (ts_unit ts) (VStr u)
            end
          else fail_at ctx ENotUnitValue
      | None => fail_at ctx ENotUnitValue
      end
  | _ => fail_at ctx ENotUnitValue
  end.

(** model.go:333-337 *)
Fixpoint check_keys (ctx : list step) (ts : typespec) (l : list (string * value)) : vres :=
  match l with
  | [] => Ok tt
  | (k, _) :: r => if is_struct_field ts k then check_keys ctx ts r else fail_at ctx (EUndefinedField k)
  end.

(** model.go:338-349 *)
Fixpoint check_fields (ctx : list step) (fs : list fielddef) (l : list (string * value)) : vres :=
  match fs with
  | [] => Ok tt
  | f :: r =>
      match assoc (fd_name f) l with
      | Some v =>
          _ <- rec (ctx ++ [PField (fd_name f)]) (fd_spec f) v ;;
          check_fields ctx r l
      | None =>
          if fd_required f then fail_at ctx (EMissingField (fd_name f)) else check_fields ctx r l
      end
  end.

(** model.go:330-354 *)
Definition validate_struct (ctx : list step) (ts : typespec) (v : value) : vres :=
  match v with
  | VMap l => _ <- check_keys ctx ts l ;; check_fields ctx (ts_fields ts) l
  | _ => fail_no ENotStruct
  end.

(** model.go:364-369 *)
Fixpoint check_items (ctx : list step) (ts : typespec) (i : nat) (l : list value) : vres :=
  match l with
  | [] => Ok tt
  | x :: r => _ <- rec (ctx ++ [PIndex i]) ts x ;; check_items ctx ts (S i) r
  end.

(** model.go:395-400 *)
Fixpoint check_entries (ctx : list step) (ts : typespec) (l : list (string * value)) : vres :=
  match l with
  | [] => Ok tt
  | (k, x) :: r => _ <- rec (ctx ++ [PKey k]) ts x ;; check_entries ctx ts r
  end.

(** model.go:371-380, 402-411 *)
Definition check_sizes (ctx : list step) (ts : typespec) (n : nat) : vres :=
  if size_gt n (ts_maxsize ts) then fail_at ctx ETooLarge
  else if size_lt n (ts_minsize ts) then fail_at ctx ETooSmall
  else Ok tt.

(** model.go:356-385 *)
Definition validate_array (ctx : list step) (ts : typespec) (v : value) : vres :=
  match v with
  | VArr l =>
      _ <- (if ts_items ts =?s "Any" then Ok tt
            else match find_type m (ts_items ts) with
                 | None => fail_at ctx (EUndefinedType (ts_items ts))
                 | Some td => check_items ctx (td_spec td) 0 l
                 end) ;;
      check_sizes ctx ts (length l)
  | _ => fail_at ctx ENotArray
  end.

(** model.go:387-416 *)
Definition validate_map (ctx : list step) (ts : typespec) (v : value) : vres :=
  match v with
  | VMap l =>
      _ <- (if ts_items ts =?s "Any" then Ok tt
            else match find_type m (ts_items ts) with
                 | None => fail_at ctx (EUndefinedType (ts_items ts))
                 | Some td => check_entries ctx (td_spec td) l
                 end) ;;
      check_sizes ctx ts (length l)
  | _ => fail_at ctx ENotArray
  end.

(** model.go:170-208 ValidateAgainstTypeSpec *)
Definition validate_step (ctx : list step) (ts : typespec) (v : value) : vres :=
  let t := ts_type ts in
  if t =?s "Timestamp" then validate_timestamp X v
  else if t =?s "String" then validate_string X ts v
  else if t =?s "Struct" then validate_struct ctx ts v
  else if t =?s "Array" then validate_array ctx ts v
  else if t =?s "Map" then validate_map ctx ts v
  else if str_mem t numeric_types then validate_number ctx ts v
  else if t =?s "Bool" then validate_bool ctx v
  else if t =?s "Enum" then validate_enum ctx ts v
  else if t =?s "UnitValue" then validate_unitvalue ctx ts v
  else if t =?s "UUID" then validate_uuid ctx v
  else if t =?s "Bytes" then Ok tt
  else if t =?s "Any" then Ok tt
  else match find_type m t with
       | None => fail_at ctx (ENoSuchType t)
       | Some td => rec ctx (td_spec td) v
       end.
End Step.

Fixpoint validate_spec (fuel : nat) (ctx : list step) (ts : typespec) (v : value) : vres :=
  match fuel with
  | O => OutOfFuel
  | S f => validate_step (validate_spec f) ctx ts v
  end.

(** model.go:159-168 *)
Definition validate (fuel : nat) (ctx : list step) (n : string) (v : value) : vres :=
  validate_named (validate_spec fuel) ctx n v.
End Validate.
