(** What a UTC timestamp text means, written without the model's functions. *)
From Verif Require Import GoStr Value.
Local Open Scope Z_scope.

(** [digits s n]: [s] is a non-empty decimal numeral with value [n], leading zeros allowed. *)
Inductive digits : string -> Z -> Prop :=
| dg_one c n : 0 <= n < 10 -> Z.of_nat (nat_of_ascii c) = 48 + n -> digits (String c EmptyString) n
| dg_snoc s m c n : digits s m -> 0 <= n < 10 -> Z.of_nat (nat_of_ascii c) = 48 + n ->
    digits (s +++ String c EmptyString) (10 * m + n).

Definition divides (a b : Z) : Prop := exists k, b = k * a.

Definition leap_year (y : Z) : Prop := divides 4 y /\ (divides 100 y -> divides 400 y).

(** Length of each month. *)
Inductive month_days (y : Z) : Z -> Z -> Prop :=
| md_31 m : In m [1; 3; 5; 7; 8; 10; 12] -> month_days y m 31
| md_30 m : In m [4; 6; 9; 11] -> month_days y m 30
| md_29 : leap_year y -> month_days y 2 29
| md_28 : ~ leap_year y -> month_days y 2 28.

(** An existing date and time of day in UTC. *)
Definition real_time (t : timestamp) : Prop :=
  (exists n, month_days (t_year t) (t_month t) n /\ 1 <= t_day t <= n)
  /\ 0 <= t_hour t < 24 /\ 0 <= t_min t < 60 /\ 0 <= t_sec t < 60
  /\ 0 <= t_nsec t < 1000000000 /\ t_off t = 0.

(** The spellings of UTC. *)
Definition utc_suffix (z : string) : Prop :=
  In z ["Z"; "+00:00"; "-00:00"; "+0000"; "-0000"].

(** [fraction f ns]: [f] is empty, or a separator and digits that denote [ns] nanoseconds
    (digits beyond the ninth are ignored). *)
Inductive fraction : string -> Z -> Prop :=
| fr_none : fraction EmptyString 0
| fr_short c s n : In c ["."; ","]%char -> digits s n -> (String.length s <= 9)%nat ->
    fraction (String c s) (n * 10 ^ (9 - Z.of_nat (String.length s)))
| fr_long c s r n : In c ["."; ","]%char -> digits s n -> (String.length s = 9)%nat ->
    (exists m, digits r m) -> fraction (String c (s +++ r)) n.

(** [time_text s t]: [s] spells the instant [t]. *)
Definition time_text (s : string) (t : timestamp) : Prop :=
  exists ys ms ds hs mis ss fs z,
    s = ys +++ "-" +++ ms +++ "-" +++ ds +++ "T" +++ hs +++ ":" +++ mis +++ ":" +++ ss +++ fs +++ z
    /\ digits ys (t_year t) /\ String.length ys = 4%nat
    /\ digits ms (t_month t) /\ String.length ms = 2%nat
    /\ digits ds (t_day t) /\ String.length ds = 2%nat
    /\ digits hs (t_hour t) /\ (String.length hs = 1%nat \/ String.length hs = 2%nat)
    /\ digits mis (t_min t) /\ String.length mis = 2%nat
    /\ digits ss (t_sec t) /\ String.length ss = 2%nat
    /\ fraction fs (t_nsec t)
    /\ utc_suffix z.

(** Which fractions a Go release reads: "," only from 1.17 on; more than nine digits only in newer ones. *)
Definition version_reads (comma long : bool) (fs : string) : Prop :=
  fs = EmptyString \/
  exists c s, fs = String c s /\ (c = "."%char \/ (comma = true /\ c = ","%char))
    /\ (long = true \/ (String.length s <= 9)%nat).

(** [time_text], restricted to what the release reads. *)
Definition time_text_v (comma long : bool) (s : string) (t : timestamp) : Prop :=
  exists ys ms ds hs mis ss fs z,
    s = ys +++ "-" +++ ms +++ "-" +++ ds +++ "T" +++ hs +++ ":" +++ mis +++ ":" +++ ss +++ fs +++ z
    /\ digits ys (t_year t) /\ String.length ys = 4%nat
    /\ digits ms (t_month t) /\ String.length ms = 2%nat
    /\ digits ds (t_day t) /\ String.length ds = 2%nat
    /\ digits hs (t_hour t) /\ (String.length hs = 1%nat \/ String.length hs = 2%nat)
    /\ digits mis (t_min t) /\ String.length mis = 2%nat
    /\ digits ss (t_sec t) /\ String.length ss = 2%nat
    /\ fraction fs (t_nsec t) /\ version_reads comma long fs
    /\ utc_suffix z.
