(** timestamp.go, and the part of Go's [time] package it relies on. *)
From Verif Require Import GoStr Value.
Local Open Scope Z_scope.

(** ** Decimal text ([fmt] verbs %d, %02d, %03d) *)

Definition digit_char (n : Z) : ascii := ascii_of_nat (48 + Z.to_nat n).
Definition digit_str (n : Z) : string := String (digit_char n) EmptyString.

(** Text of a natural number; [fuel] bounds the digit count. *)
Fixpoint nat_text (fuel : nat) (n : Z) : string :=
  match fuel with
  | O => EmptyString
  | S f => if n <? 10 then digit_str n
           else nat_text f (n / 10) +++ digit_str (n mod 10)
  end.
(** fmt.Sprintf("%d", n).  The fuel (bit length + 1) always covers the digits. *)
Definition fmt_d (n : Z) : string :=
  if n <? 0 then String "-" (nat_text (S (Z.to_nat (Z.log2_up (- n + 1)))) (- n))
  else nat_text (S (Z.to_nat (Z.log2_up (n + 1)))) n.

(** fmt.Sprintf("%0wd", n) for a non-negative n: pad with zeros on the left to w characters. *)
Fixpoint zpad (k : nat) (s : string) : string :=
  match k with O => s | S k' => String "0" (zpad k' s) end.
Definition fmt_0d (w : nat) (n : Z) : string :=
  let s := fmt_d n in zpad (w - String.length s) s.

(** ** Calendar ([time] package) *)

Definition is_leap (y : Z) : bool :=
  (y mod 4 =? 0) && (negb (y mod 100 =? 0) || (y mod 400 =? 0)).

(** time.daysIn *)
Definition days_in (m y : Z) : Z :=
  if m =? 2 then (if is_leap y then 29 else 28)
  else if (m =? 4) || (m =? 6) || (m =? 9) || (m =? 11) then 30 else 31.

Definition days_before_month (m y : Z) : Z :=
  nth (Z.to_nat (m - 1)) [0; 31; 59; 90; 120; 151; 181; 212; 243; 273; 304; 334] 0
  + (if (2 <? m) && is_leap y then 1 else 0).

(** Days from 0001-01-01 (proleptic Gregorian). *)
Definition days_from_civil (y m d : Z) : Z :=
  let y1 := y - 1 in
  365 * y1 + y1 / 4 - y1 / 100 + y1 / 400 + days_before_month m y + (d - 1).

(** Seconds since the zero time 0001-01-01T00:00:00Z, and [time.Time.IsZero]. *)
Definition instant_sec (t : timestamp) : Z :=
  days_from_civil (t_year t) (t_month t) (t_day t) * 86400
  + t_hour t * 3600 + t_min t * 60 + t_sec t - t_off t.
Definition is_zero (t : timestamp) : bool := (instant_sec t =? 0) && (t_nsec t =? 0).

(** ** timestamp.go:14-21 Timestamp.String, RFC3339Milli "%d-%02d-%02dT%02d:%02d:%02d.%03dZ".
    The zone offset is ignored by the code: the civil fields are printed with a "Z". *)
Definition ts_string (t : timestamp) : string :=
  if is_zero t then EmptyString
  else fmt_d (t_year t) +++ "-" +++ fmt_0d 2 (t_month t) +++ "-" +++ fmt_0d 2 (t_day t)
       +++ "T" +++ fmt_0d 2 (t_hour t) +++ ":" +++ fmt_0d 2 (t_min t) +++ ":" +++ fmt_0d 2 (t_sec t)
       +++ "." +++ fmt_0d 3 (t_nsec t / 1000000) +++ "Z".

(** ** [time.Parse] for the layout "2006-01-02T15:04:05.999Z" *)

Definition digit_val (c : ascii) : option Z :=
  if is_digit c then Some (Z.of_nat (nat_of_ascii c) - 48) else None.

(** time.getnum: one or two digits ([fixed] demands two). *)
Definition getnum (s : string) (fixed : bool) : option (Z * string) :=
  match s with
  | String a r =>
      match digit_val a with
      | None => None
      | Some x =>
          match r with
          | String b r' =>
              match digit_val b with
              | Some y => Some (x * 10 + y, r')
              | None => if fixed then None else Some (x, r)
              end
          | EmptyString => if fixed then None else Some (x, r)
          end
      end
  | EmptyString => None
  end.

(** stdLongYear: exactly four digits. *)
Definition getyear (s : string) : option (Z * string) :=
  match s with
  | String a (String b (String c (String d r))) =>
      match digit_val a, digit_val b, digit_val c, digit_val d with
      | Some w, Some x, Some y, Some z => Some (1000 * w + 100 * x + 10 * y + z, r)
      | _, _, _, _ => None
      end
  | _ => None
  end.

(** time.skip for a one-byte literal of the layout *)
Definition skip (c : ascii) (s : string) : option string :=
  match s with
  | String a r => if Ascii.eqb a c then Some r else None
  | EmptyString => None
  end.

(** Longest run of digits, at most [lim] of them when [lim = Some n]. *)
Fixpoint take_digits (lim : option nat) (s : string) : list Z * string :=
  match lim with
  | Some O => ([], s)
  | _ =>
      match s with
      | String a r =>
          match digit_val a with
          | Some x => let '(l, rest) := take_digits (option_map pred lim) r in (x :: l, rest)
          | None => ([], s)
          end
      | EmptyString => ([], s)
      end
  end.

(** time.parseNanoseconds: the first nine digits, scaled. *)
Fixpoint nanos (scale : nat) (l : list Z) : Z :=
  match scale, l with
  | O, _ => 0
  | _, [] => 0
  | S k, x :: r => x * 10 ^ Z.of_nat k + nanos k r
  end.

Section GoVersion.
(** Go >= 1.17 also accepts "," before the fraction; newer releases consume more than nine
    fraction digits and truncate.  Both behaviours are covered: the flags are arbitrary. *)
Variables (comma_ok long_frac : bool).

Definition frac_sep (c : ascii) : bool := Ascii.eqb c "." || (comma_ok && Ascii.eqb c ",").

(** stdFracSecond9: the fraction may be missing. *)
Definition parse_frac (s : string) : Z * string :=
  match s with
  | String c (String d r) =>
      if frac_sep c && is_digit d then
        let '(l, rest) := take_digits (if long_frac then None else Some 9%nat) (String d r) in
        (nanos 9 l, rest)
      else (0, s)
  | _ => (0, s)
  end.

Definition obind {A B} (o : option A) (f : A -> option B) : option B :=
  match o with Some a => f a | None => None end.

(** time.Parse(layout, s): the fields, in order, then "Z", then nothing. *)
Definition time_parse (s : string) : option timestamp :=
  obind (getyear s) (fun '(y, s) =>
  obind (skip "-" s) (fun s =>
  obind (getnum s true) (fun '(mo, s) =>
  obind (skip "-" s) (fun s =>
  obind (getnum s true) (fun '(d, s) =>
  obind (skip "T" s) (fun s =>
  obind (getnum s false) (fun '(h, s) =>
  obind (skip ":" s) (fun s =>
  obind (getnum s true) (fun '(mi, s) =>
  obind (skip ":" s) (fun s =>
  obind (getnum s true) (fun '(sec, s) =>
  let '(ns, s) := parse_frac s in
  obind (skip "Z" s) (fun s =>
  match s with
  | EmptyString =>
      if (1 <=? mo) && (mo <=? 12) && (h <? 24) && (mi <? 60) && (sec <? 60)
         && (1 <=? d) && (d <=? days_in mo y)
      then Some (mkTime y mo d h mi sec ns 0)
      else None
  | _ => None
  end)))))))))))).

(** timestamp.go:40-55 ParseTimestamp *)
Definition parse_timestamp (s : string) : option timestamp :=
  match time_parse s with
  | Some t => Some t
  | None =>
      if has_suffix "+00:00" s || has_suffix "-00:00" s
      then time_parse (stake (String.length s - 6) s +++ "Z")
      else if has_suffix "+0000" s || has_suffix "-0000" s
      then time_parse (stake (String.length s - 5) s +++ "Z")
      else None
  end.
End GoVersion.
