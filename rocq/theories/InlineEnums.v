(** model.go:598-634 ConvertInlineEnums. *)
From Verif Require Import GoStr Outcome Value Schema Model Misc Equiv.

(** A model with its sharing: [model.Types] and [model.typeIndex] hold pointers to the same TypeDef
    objects, so the index maps a name to a built-in type or to a position in the list of types. *)
Inductive tref := IBase (n : string) | IDecl (i : nat).
Record hmodel := mkH { hm_types : list typedef; hm_index : list (string * tref) }.

(** What NewModel (model.go:19-41) builds, in this representation. *)
Fixpoint number_types (i : nat) (l : list typedef) : list (string * tref) :=
  match l with [] => [] | td :: r => (td_name td, IDecl i) :: number_types (S i) r end.
Definition shared (sch : schema) : hmodel :=
  mkH (sc_types sch) (map (fun n => (n, IBase n)) base_types ++ number_types 0 (sc_types sch)).

(** model.go:43-50 FindType *)
Definition lookup (h : hmodel) (n : string) : option typedef :=
  match assoc n (hm_index h) with
  | Some (IBase b) => Some (base_typedef b)
  | Some (IDecl i) => nth_error (hm_types h) i
  | None => None
  end.

(** model.go:606-609 *)
Definition synth_name (tdname fname : string) : string :=
  let t := capitalize fname in if has_prefix tdname t then t else tdname +++ t.

(** model.go:614-619.  The field is an Enum, so EquivalentTypes only compares kinds and symbols: it
    never looks up another type, and does not look inside a struct; so it makes no difference
    that [h] is the model before the call instead of the one with some fields already rewritten. *)
Definition clash (h : hmodel) (tn : string) (spec : typespec) : bool :=
  match lookup h tn with
  | None => false
  | Some prev =>
      match equivalent (mkModel (schema_of [] []) [] []) 1 false (td_spec prev) spec with
      | Ok true => false
      | _ => true
      end
  end.

Definition set_spec (f : fielddef) (ts : typespec) : fielddef :=
  mkField (fd_name f) (fd_comment f) (fd_annos f) (fd_required f) (fd_default f) ts.
Definition set_fields (ts : typespec) (fs : list fielddef) : typespec :=
  mkTS (ts_type ts) (ts_pattern ts) (ts_values ts) (ts_minsize ts) (ts_maxsize ts) fs (ts_elements ts)
       (ts_min ts) (ts_max ts) (ts_items ts) (ts_keys ts) (ts_variants ts) (ts_unit ts) (ts_value ts) (ts_reference ts).

(** model.go:604-625: the fields of one struct.  Gives the fields afterwards, the new definitions,
    and [false] when the call ends with the error (the rest is then as it was). *)
Fixpoint conv_fields (h : hmodel) (tdname : string) (fs : list fielddef)
  : list fielddef * list typedef * bool :=
  match fs with
  | [] => ([], [], true)
  | f :: r =>
      if ts_type (fd_spec f) =?s "Enum" then
        let tn := synth_name tdname (fd_name f) in
        if clash h tn (fd_spec f) then (f :: r, [], false)
        else
          let '(r', ns, ok) := conv_fields h tdname r in
          (set_spec f (ts_of tn) :: r', mkTD tn "" [] (fd_spec f) :: ns, ok)
      else
        let '(r', ns, ok) := conv_fields h tdname r in (f :: r', ns, ok)
  end.

(** model.go:601-628 *)
Fixpoint conv_types (h : hmodel) (l : list typedef) : list typedef * list typedef * bool :=
  match l with
  | [] => ([], [], true)
  | td :: r =>
      if ts_type (td_spec td) =?s "Struct" then
        let '(fs, ns, ok) := conv_fields h (td_name td) (ts_fields (td_spec td)) in
        let td' := mkTD (td_name td) (td_comment td) (td_annos td) (set_fields (td_spec td) fs) in
        if (ok : bool) then
          let '(r', ns', ok') := conv_types h r in (td' :: r', ns ++ ns', ok')
        else (td' :: r, ns, false)
      else
        let '(r', ns', ok') := conv_types h r in (td :: r', ns', ok')
  end.

(** model.go:629-632 *)
Fixpoint index_new (i : nat) (ns : list typedef) (idx : list (string * tref)) : list (string * tref) :=
  match ns with
  | [] => idx
  | td :: r => index_new (S i) r (assoc_set (td_name td) (IDecl i) idx)
  end.

(** The model after the call, and whether the call succeeded. *)
Definition convert_inline_enums (h : hmodel) : hmodel * bool :=
  let '(types, ns, ok) := conv_types h (hm_types h) in
  if (ok : bool)
  then (mkH (types ++ ns) (index_new (length types) ns (hm_index h)), true)
  else (mkH types (hm_index h), false).
