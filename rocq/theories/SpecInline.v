(** Specification for hoisting inline enums. *)
From Verif Require Import GoStr Value Schema SpecModel SpecMisc.

(** [f] is a field of the struct type [td] with an inline enum. *)
Definition inline_enum (sch : schema) (td : typedef) (f : fielddef) : Prop :=
  In td (sc_types sch) /\ ts_type (td_spec td) = "Struct"
  /\ In f (ts_fields (td_spec td)) /\ ts_type (fd_spec f) = "Enum".

(** The name given to the enum of field [f] of type [t]: the capitalised field name, with the
    struct's name in front unless it starts with it already. *)
Definition given_name (cap : string -> string) (t f n : string) : Prop :=
  (exists r, cap f = t +++ r /\ n = cap f) \/ ((~ exists r, cap f = t +++ r) /\ n = t +++ cap f).

(** Names a type spec mentions, including those of nested inline structs. *)
Inductive mentions : typespec -> string -> Prop :=
| mn_type ts : mentions ts (ts_type ts)
| mn_items ts : mentions ts (ts_items ts)
| mn_unit ts : mentions ts (ts_unit ts)
| mn_value ts : mentions ts (ts_value ts)
| mn_field ts f n : In f (ts_fields ts) -> mentions (fd_spec f) n -> mentions ts n.

(** The schema with another list of types. *)
Definition with_types (sch : schema) (l : list typedef) : schema :=
  mkSchema (sc_sadl sch) (sc_name sch) (sc_namespace sch) (sc_version sch) (sc_comment sch) l
    (sc_examples sch) (sc_operations sch) (sc_http sch) (sc_base sch) (sc_annos sch).

(** The names the call makes up collide with nothing. *)
Record fresh (cap : string -> string) (sch : schema) : Prop := {
  fr_builtin : forall td f n, inline_enum sch td f -> given_name cap (td_name td) (fd_name f) n ->
    ~ In n builtin_names;
  fr_nonempty : forall td f n, inline_enum sch td f -> given_name cap (td_name td) (fd_name f) n -> n <> "";
  fr_declared : forall td f n, inline_enum sch td f -> given_name cap (td_name td) (fd_name f) n ->
    ~ In n (map td_name (sc_types sch));
  fr_mentioned : forall td f n td2, inline_enum sch td f -> given_name cap (td_name td) (fd_name f) n ->
    In td2 (sc_types sch) -> ~ mentions (td_spec td2) n;
  fr_unique : forall td f td2 f2 n, inline_enum sch td f -> inline_enum sch td2 f2 ->
    given_name cap (td_name td) (fd_name f) n -> given_name cap (td_name td2) (fd_name f2) n ->
    td = td2 /\ f = f2;
  fr_fields : forall td, In td (sc_types sch) -> ts_type (td_spec td) = "Struct" ->
    NoDup (map fd_name (ts_fields (td_spec td))) }.

(** every inline enum has an element *)
Definition no_empty_enum (sch : schema) : Prop :=
  forall td f, inline_enum sch td f -> ts_elements (fd_spec f) <> [].
