(** Specifications for models and validation, written without the model's functions
    (they use only the data types, and the external regexp / decimal reader of [ext]). *)
From Verif Require Import GoStr Value Schema Scalars SpecTime.

(** ** Names *)
Definition builtin_names : list string :=
  [ "Bool"; "Int8"; "Int16"; "Int32"; "Int64"; "Float32"; "Float64"; "Decimal"; "Bytes"; "String";
    "Timestamp"; "UnitValue"; "UUID"; "Array"; "Map"; "Struct"; "Enum"; "Union"; "Any" ].

(** No clash anywhere: what NewModel must accept. *)
Definition collision_free (sch : schema) : Prop :=
  NoDup (map td_name (sc_types sch))
  /\ (forall td, In td (sc_types sch) -> ~ In (td_name td) builtin_names)
  /\ NoDup (map h_name (sc_http sch)).

(** [declares sch n td]: the type named [n] is [td], built-in or declared. *)
Definition declares (sch : schema) (n : string) (td : typedef) : Prop :=
  (In n builtin_names /\ td = mkTD n "" [] (ts_of n))
  \/ (In td (sc_types sch) /\ td_name td = n).

Definition defines (sch : schema) (n : string) (ts : typespec) : Prop :=
  exists td, declares sch n td /\ td_spec td = ts.

(** ** Elementary predicates *)
Definition text_of (v : value) (s : string) : Prop := v = VStr s \/ v = VPStr s.

Definition at_least (n : nat) (o : option Z) : Prop :=
  match o with Some z => (z <= Z.of_nat n)%Z | None => True end.
Definition at_most (n : nat) (o : option Z) : Prop :=
  match o with Some z => (Z.of_nat n <= z)%Z | None => True end.

(** Order of decimals: compare at a common exponent; infinities at the ends. *)
Definition dec_le (a b : decimal) : Prop :=
  match a, b with
  | DFin m1 e1, DFin m2 e2 =>
      exists k, (k <= e1 /\ k <= e2 /\ m1 * 2 ^ (e1 - k) <= m2 * 2 ^ (e2 - k))%Z
  | DInf true, _ => True
  | _, DInf false => True
  | _, _ => False
  end.
Definition within (d : decimal) (lo hi : option decimal) : Prop :=
  (forall l, lo = Some l -> dec_le l d) /\ (forall h, hi = Some h -> dec_le d h).

(** A whole number between two integers. *)
Definition whole_in (d : decimal) (lo hi : Z) : Prop :=
  exists z, (lo <= z <= hi)%Z /\ dec_le d (DFin z 0) /\ dec_le (DFin z 0) d.

Definition pattern_ok (X : ext) (p s : string) : Prop :=
  p = EmptyString \/ exists f, x_regex X p = Some f /\ f s = true.

(** 36 characters, groups of 8-4-4-4-12 separated by '-' *)
Definition uuid_shape (ok : ascii -> Prop) (s : string) : Prop :=
  exists a b c d e, s = a +++ "-" +++ b +++ "-" +++ c +++ "-" +++ d +++ "-" +++ e
    /\ String.length a = 8 /\ String.length b = 4 /\ String.length c = 4
    /\ String.length d = 4 /\ String.length e = 12
    /\ (forall g x, In g [a; b; c; d; e] -> (exists l r, g = l +++ String x r) -> ok x).
Definition hex_digit (c : ascii) : Prop :=
  exists n, nat_of_ascii c = n /\ ((48 <= n <= 57) \/ (65 <= n <= 70) \/ (97 <= n <= 102)).

(** ** [handled]: the kinds with their own rule; anything else is a reference to a name *)
Definition kinds : list string :=
  [ "Bool"; "Int8"; "Int16"; "Int32"; "Int64"; "Float32"; "Float64"; "Decimal"; "Bytes"; "String";
    "Timestamp"; "UnitValue"; "UUID"; "Array"; "Map"; "Struct"; "Enum"; "Any" ].
Definition number_kinds : list string :=
  [ "Int8"; "Int16"; "Int32"; "Int64"; "Float32"; "Float64"; "Decimal" ].

(** [refers sch ts ts']: [ts] is merely the name of a type whose definition is [ts']. *)
Definition refers (sch : schema) (ts ts' : typespec) : Prop :=
  ~ In (ts_type ts) kinds /\ defines sch (ts_type ts) ts'.

(** ** [accepts]: the value set the validator implements.  It departs from the natural reading
    [member] below exactly where the comments say "lax" or "strict". *)
Section Spec.
Variable X : ext.
Variable sch : schema.

Definition sizes_ok (ts : typespec) (n : nat) : Prop :=
  at_least n (ts_minsize ts) /\ at_most n (ts_maxsize ts).

Definition closed_object (ts : typespec) (l : list (string * value)) : Prop :=
  (forall k, In k (map fst l) -> exists f, In f (ts_fields ts) /\ fd_name f = k)
  /\ (forall f, In f (ts_fields ts) -> fd_required f = true -> In (fd_name f) (map fst l)).

Inductive accepts : typespec -> value -> Prop :=
| ac_time ts t : ts_type ts = "Timestamp" -> accepts ts (VTime t)
| ac_time_text ts s t :                       (* strict: a Go string (not *string) is refused *)
    ts_type ts = "Timestamp" -> time_text_v (x_comma X) (x_long X) s t -> real_time t ->
    accepts ts (VPStr s)
| ac_string ts v s :                          (* lax: with values, the pattern is not looked at *)
    ts_type ts = "String" -> text_of v s -> sizes_ok ts (String.length s) ->
    (forall vs, ts_values ts = Some vs -> In s vs) ->
    (ts_values ts = None -> pattern_ok X (ts_pattern ts) s) ->
    accepts ts v
| ac_struct ts l :
    ts_type ts = "Struct" -> closed_object ts l ->
    (forall f x, In f (ts_fields ts) -> In (fd_name f, x) l -> accepts (fd_spec f) x) ->
    accepts ts (VMap l)
| ac_array ts ts' l :
    ts_type ts = "Array" -> ts_items ts <> "Any" -> defines sch (ts_items ts) ts' ->
    (forall x, In x l -> accepts ts' x) -> sizes_ok ts (length l) -> accepts ts (VArr l)
| ac_array_any ts l :
    ts_type ts = "Array" -> ts_items ts = "Any" -> sizes_ok ts (length l) -> accepts ts (VArr l)
| ac_map ts ts' l :                           (* lax: keys are not looked at *)
    ts_type ts = "Map" -> ts_items ts <> "Any" -> defines sch (ts_items ts) ts' ->
    (forall k x, In (k, x) l -> accepts ts' x) -> sizes_ok ts (length l) -> accepts ts (VMap l)
| ac_map_any ts l :
    ts_type ts = "Map" -> ts_items ts = "Any" -> sizes_ok ts (length l) -> accepts ts (VMap l)
| ac_number ts d :                            (* lax: only declared limits, no integrality, no range *)
    In (ts_type ts) number_kinds -> within d (ts_min ts) (ts_max ts) -> accepts ts (VDec d)
| ac_bool ts b : ts_type ts = "Bool" -> accepts ts (VBool b)
| ac_pbool ts b : ts_type ts = "Bool" -> accepts ts (VPBool b)
| ac_enum ts v s :
    ts_type ts = "Enum" -> text_of v s -> s <> EmptyString ->
    (exists e, In e (ts_elements ts) /\ ee_symbol e = s) -> accepts ts v
| ac_uuid ts s : ts_type ts = "UUID" -> accepts ts (VUuid s)
| ac_uuid_text ts v s :                       (* lax: any bytes between the dashes *)
    ts_type ts = "UUID" -> text_of v s -> uuid_shape (fun _ => True) s -> accepts ts v
| ac_unit ts a u d ts1 ts2 :                  (* strict: at least 3 characters before the space, *string only *)
    ts_type ts = "UnitValue" -> smem " " a = false -> 3 <= String.length a ->
    x_decimal X a = Some d ->
    defines sch (ts_value ts) ts1 -> accepts ts1 (VDec d) ->
    defines sch (ts_unit ts) ts2 -> accepts ts2 (VStr u) ->
    accepts ts (VPStr (a +++ String " " u))
| ac_bytes ts v : ts_type ts = "Bytes" -> accepts ts v      (* lax: anything *)
| ac_any ts v : ts_type ts = "Any" -> accepts ts v
| ac_ref ts ts' v : refers sch ts ts' -> accepts ts' v -> accepts ts v.

(** ** [member]: the natural reading of a definition (what a user expects).  Unions are left out:
    neither the code nor the documentation says what a union value looks like. *)
Definition int_range (k : string) : option (Z * Z) :=
  match k with
  | "Int8" => Some (-128, 127)%Z
  | "Int16" => Some (-32768, 32767)%Z
  | "Int32" => Some (-2147483648, 2147483647)%Z
  | "Int64" => Some (-9223372036854775808, 9223372036854775807)%Z
  | _ => None
  end.

Inductive member : typespec -> value -> Prop :=
| me_time ts t : ts_type ts = "Timestamp" -> member ts (VTime t)
| me_time_text ts v s t :
    ts_type ts = "Timestamp" -> text_of v s ->
    time_text_v (x_comma X) (x_long X) s t -> real_time t -> member ts v
| me_string ts v s :
    ts_type ts = "String" -> text_of v s -> sizes_ok ts (String.length s) ->
    (forall vs, ts_values ts = Some vs -> In s vs) ->
    pattern_ok X (ts_pattern ts) s ->
    member ts v
| me_struct ts l :
    ts_type ts = "Struct" -> closed_object ts l ->
    (forall f x, In f (ts_fields ts) -> In (fd_name f, x) l -> member (fd_spec f) x) ->
    member ts (VMap l)
| me_array ts ts' l :
    ts_type ts = "Array" -> defines sch (ts_items ts) ts' ->
    (forall x, In x l -> member ts' x) -> sizes_ok ts (length l) -> member ts (VArr l)
| me_map ts ts1 ts2 l :
    ts_type ts = "Map" -> defines sch (ts_keys ts) ts1 -> defines sch (ts_items ts) ts2 ->
    (forall k x, In (k, x) l -> member ts1 (VStr k)) ->
    (forall k x, In (k, x) l -> member ts2 x) -> sizes_ok ts (length l) -> member ts (VMap l)
| me_number ts d :
    In (ts_type ts) number_kinds -> within d (ts_min ts) (ts_max ts) ->
    (forall lo hi, int_range (ts_type ts) = Some (lo, hi) -> whole_in d lo hi) -> member ts (VDec d)
| me_bool ts b : ts_type ts = "Bool" -> member ts (VBool b)
| me_pbool ts b : ts_type ts = "Bool" -> member ts (VPBool b)
| me_enum ts v s :
    ts_type ts = "Enum" -> text_of v s ->
    (exists e, In e (ts_elements ts) /\ ee_symbol e = s) -> member ts v
| me_uuid ts s : ts_type ts = "UUID" -> member ts (VUuid s)
| me_uuid_text ts v s :
    ts_type ts = "UUID" -> text_of v s -> uuid_shape hex_digit s -> member ts v
| me_unit ts v a u d ts1 ts2 :
    ts_type ts = "UnitValue" -> text_of v (a +++ String " " u) -> smem " " a = false ->
    u <> EmptyString -> x_decimal X a = Some d ->
    defines sch (ts_value ts) ts1 -> member ts1 (VDec d) ->
    defines sch (ts_unit ts) ts2 -> member ts2 (VStr u) ->
    member ts v
| me_bytes ts v s : ts_type ts = "Bytes" -> text_of v s -> sizes_ok ts (String.length s) -> member ts v
| me_any ts v : ts_type ts = "Any" -> member ts v
| me_ref ts ts' v : refers sch ts ts' -> member ts' v -> member ts v.

(** ** Positions inside a value *)
Inductive at_pos : typespec -> value -> typespec -> value -> Prop :=
| ap_here ts v : at_pos ts v ts v
| ap_ref ts ts' v ts2 v2 : refers sch ts ts' -> at_pos ts' v ts2 v2 -> at_pos ts v ts2 v2
| ap_field ts l f x ts2 v2 :
    ts_type ts = "Struct" -> In f (ts_fields ts) -> In (fd_name f, x) l ->
    at_pos (fd_spec f) x ts2 v2 -> at_pos ts (VMap l) ts2 v2
| ap_item ts ts' l x ts2 v2 :
    ts_type ts = "Array" -> ts_items ts <> "Any" -> defines sch (ts_items ts) ts' -> In x l ->
    at_pos ts' x ts2 v2 -> at_pos ts (VArr l) ts2 v2
| ap_entry ts ts' l k x ts2 v2 :
    ts_type ts = "Map" -> ts_items ts <> "Any" -> defines sch (ts_items ts) ts' -> In (k, x) l ->
    at_pos ts' x ts2 v2 -> at_pos ts (VMap l) ts2 v2.

(** ** Type specs a value of [ts] can lead to *)
Inductive leads : typespec -> typespec -> Prop :=
| le_here ts : leads ts ts
| le_ref ts ts' t2 : refers sch ts ts' -> leads ts' t2 -> leads ts t2
| le_field ts f t2 : ts_type ts = "Struct" -> In f (ts_fields ts) -> leads (fd_spec f) t2 -> leads ts t2
| le_item ts ts' t2 : In (ts_type ts) ["Array"; "Map"] -> ts_items ts <> "Any" ->
    defines sch (ts_items ts) ts' -> leads ts' t2 -> leads ts t2
| le_unit ts ts' t2 : ts_type ts = "UnitValue" ->
    (defines sch (ts_value ts) ts' \/ defines sch (ts_unit ts) ts') -> leads ts' t2 -> leads ts t2.

(** No infinite chain of names starts at [ts]. *)
Definition names_end (ts : typespec) : Prop := Acc (fun b a => refers sch a b) ts.
End Spec.
