(** uuid.go, unitvalue.go, decimal.go *)
From Verif Require Import GoStr Value Time.

(** What the code calls but is not in /repo: the Go standard library's regexp engine and
    big.ParseFloat, and two differences between Go releases in time.Parse (see Time.v).
    A value of this record is an argument of every theorem that needs it. *)
Record ext := mkExt {
  (** [regexp.Compile p] ([None]: bad pattern) and [MatchString] *)
  x_regex : string -> option (string -> bool);
  (** [ParseDecimal] (decimal.go:34-40), i.e. [big.ParseFloat(text, 10, 250, ToNearestEven)] *)
  x_decimal : string -> option decimal;
  x_comma : bool;
  x_long : bool }.

(** Character at index [i] of a string known to be long enough. *)
Definition at_is (i : nat) (c : ascii) (s : string) : bool :=
  match String.get i s with Some a => Ascii.eqb a c | None => false end.

(** uuid.go:25-35 ParseUUID; the empty result means "not a UUID". *)
Definition parse_uuid (text : string) : string :=
  if negb (String.length text =? 36) then EmptyString
  else if negb (at_is 8 "-" text && at_is 13 "-" text && at_is 18 "-" text && at_is 23 "-" text)
  then EmptyString
  else text.

(** unitvalue.go:9-12 *)
Record unitvalue := mkUV { uvl_value : decimal; uvl_unit : string }.

(** unitvalue.go:18-33 ParseUnitValue *)
Definition parse_unitvalue (X : ext) (repr : string) : option unitvalue :=
  match cut " " repr with
  | Some (a, u) =>
      if a =?s "" then None   (* n > 0 *)
      else match x_decimal X a with
           | Some d => if u =?s "" then None else Some (mkUV d u)
           | None => None
           end
  | None => None
  end.

(** unitvalue.go:14-16 UnitValue.String with [fmt] = the text of the decimal *)
Definition unitvalue_string (fmt : decimal -> string) (q : unitvalue) : string :=
  fmt (uvl_value q) +++ " " +++ uvl_unit q.

(** The dynamic types that reach the second argument of DecimalValue. *)
Inductive defarg :=
| DaNil
| DaDec (d : decimal)
| DaInt64 (z : Z) | DaInt32 (z : Z) | DaInt16 (z : Z) | DaInt8 (z : Z)
| DaFloat (d : decimal)
| DaInt (z : Z).   (* Go int: what an untyped integer constant becomes *)

(** decimal.go:70-93 DecimalValue: note that there is no case for Go int.
    The int64 case goes through ParseDecimal(fmt.Sprint(n)), exact at 250 bits. *)
Definition decimal_value (val : option decimal) (def : defarg) : option decimal :=
  match val with
  | Some d => Some d
  | None =>
      match def with
      | DaNil => None
      | DaDec d => Some d
      | DaInt64 z | DaInt32 z | DaInt16 z | DaInt8 z => Some (dec_of_Z z)
      | DaFloat d => Some d
      | DaInt _ => None
      end
  end.
