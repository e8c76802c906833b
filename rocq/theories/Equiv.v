(** model.go: EquivalentTypes and EquivalentTypesByName. *)
From Verif Require Import GoStr Outcome Value Schema Model.

(** [p != q] for the pointer fields MinSize, Min, Max.  Pointers of two different TypeSpec objects
    are different unless both are nil; [same] says that both specs are one object.  Simplification:
    a pointer shared by two distinct TypeSpecs (which the parser never builds) is not modelled. *)
Definition ptr_eq {A} (same : bool) (p q : option A) : bool :=
  match p, q with
  | None, None => true
  | Some _, Some _ => same
  | _, _ => false
  end.

(** the [m[v] = true] / [m[v]] idiom: every element of [l2] occurs in [l1] *)
Definition covered (l1 l2 : list string) : bool := forallb (fun v => str_mem v l1) l2.

Definition vals (ts : typespec) : list string :=
  match ts_values ts with Some l => l | None => [] end.
Definition symbols (ts : typespec) : list string := map ee_symbol (ts_elements ts).
Definition variant_types (ts : typespec) : list string := map (fun v => ts_type (uv_spec v)) (ts_variants ts).

Definition bresult := result unit bool.
(** [if !a { return false }; rest] *)
Definition band (a b : bresult) : bresult :=
  x <- a ;; if (x : bool) then b else Ok false.

Section Equiv.
Variable m : model.

(** model.go:61-68.  [&td.TypeSpec] of a nil [td] is a nil dereference. *)
Definition equiv_names (rec : typespec -> typespec -> bresult) (n1 n2 : string) : bresult :=
  if n1 =?s n2 then Ok true
  else match find_type m n1, find_type m n2 with
       | Some td1, Some td2 => rec (td_spec td1) (td_spec td2)
       | _, _ => Panic
       end.

(** model.go:70-157; the comparison [ts1.MaxSize != ts1.MaxSize] (78, 103, 114) is never true *)
Definition equiv_step (rec : typespec -> typespec -> bresult) (same : bool) (ts1 ts2 : typespec) : bresult :=
  let t := ts_type ts1 in
  if negb (t =?s ts_type ts2) then Ok false
  else if t =?s "String" then
    Ok ((ts_pattern ts1 =?s ts_pattern ts2) && ptr_eq same (ts_minsize ts1) (ts_minsize ts2)
        && (length (vals ts1) =? length (vals ts2)) && (ts_reference ts1 =?s ts_reference ts2)
        && covered (vals ts1) (vals ts2))
  else if t =?s "UUID" then Ok (ts_reference ts1 =?s ts_reference ts2)
  else if t =?s "Struct" then Ok (length (ts_fields ts1) =? length (ts_fields ts2))
  else if t =?s "Bytes" then Ok (ptr_eq same (ts_minsize ts1) (ts_minsize ts2))
  else if t =?s "UnitValue" then
    band (equiv_names rec (ts_unit ts1) (ts_unit ts2)) (equiv_names rec (ts_value ts1) (ts_value ts2))
  else if (t =?s "Array") || (t =?s "Map") then
    if ptr_eq same (ts_minsize ts1) (ts_minsize ts2)
    then band (equiv_names rec (ts_items ts1) (ts_items ts2)) (equiv_names rec (ts_keys ts1) (ts_keys ts2))
    else Ok false
  else if str_mem t numeric_types then
    Ok (ptr_eq same (ts_min ts1) (ts_min ts2) && ptr_eq same (ts_max ts1) (ts_max ts2))
  else if t =?s "Enum" then
    Ok ((length (ts_elements ts1) =? length (ts_elements ts2)) && covered (symbols ts1) (symbols ts2))
  else if t =?s "Union" then
    Ok ((length (ts_variants ts1) =? length (ts_variants ts2)) && covered (variant_types ts1) (variant_types ts2))
  else Ok true.

(** The nested comparisons are of differently named types, hence of different objects. *)
Fixpoint equivalent (fuel : nat) (same : bool) (ts1 ts2 : typespec) : bresult :=
  match fuel with
  | O => OutOfFuel
  | S f => equiv_step (equivalent f false) same ts1 ts2
  end.

Definition equivalent_by_name (fuel : nat) (n1 n2 : string) : bresult :=
  equiv_names (equivalent fuel false) n1 n2.
End Equiv.
