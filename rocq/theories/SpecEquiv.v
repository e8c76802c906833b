(** Specifications for type equivalence: which named types a comparison of two types looks at. *)
From Verif Require Import GoStr Value Schema Scalars SpecModel.

(** names that are compared with each other when two types of the same kind are compared *)
Inductive parts : typespec -> typespec -> string -> string -> Prop :=
| pt_items a b : In (ts_type a) ["Array"; "Map"] -> parts a b (ts_items a) (ts_items b)
| pt_keys a b : In (ts_type a) ["Array"; "Map"] -> parts a b (ts_keys a) (ts_keys b)
| pt_unit a b : ts_type a = "UnitValue" -> parts a b (ts_unit a) (ts_unit b)
| pt_value a b : ts_type a = "UnitValue" -> parts a b (ts_value a) (ts_value b).

Section S.
Variable sch : schema.

(** [compared a b c d]: comparing [a] with [b] may end up comparing [c] with [d]. *)
Inductive compared : typespec -> typespec -> typespec -> typespec -> Prop :=
| cp_here a b : compared a b a b
| cp_part a b n1 n2 a' b' c d :
    ts_type a = ts_type b -> parts a b n1 n2 -> n1 <> n2 ->
    defines sch n1 a' -> defines sch n2 b' -> compared a' b' c d -> compared a b c d.

(** A name all of whose parts are defined, down to the bottom. *)
Inductive comparable : string -> Prop :=
| cm_intro n ts :
    defines sch n ts ->
    (ts_type ts = "Array" -> comparable (ts_items ts)) ->
    (ts_type ts = "Array" -> ts_keys ts = "") ->
    (ts_type ts = "Map" -> comparable (ts_items ts)) ->
    (ts_type ts = "Map" -> comparable (ts_keys ts)) ->
    (ts_type ts = "UnitValue" -> comparable (ts_unit ts)) ->
    (ts_type ts = "UnitValue" -> comparable (ts_value ts)) ->
    comparable n.
End S.

(** No duplicates in the lists that are compared as sets. *)
Definition listed_once (ts : typespec) : Prop :=
  NoDup (match ts_values ts with Some l => l | None => [] end)
  /\ NoDup (map ee_symbol (ts_elements ts))
  /\ NoDup (map (fun v => ts_type (uv_spec v)) (ts_variants ts)).

(** The constraints the comparison does not look at. *)
Definition unseen_agree (a b : typespec) : Prop :=
  ts_maxsize a = ts_maxsize b
  /\ (ts_type a = "Struct" -> ts_fields a = ts_fields b)
  /\ (ts_values a = Some [] <-> ts_values b = Some []).
