(** Property theorems for timestamps (C13, C14). *)
From Verif Require Import GoStr Value Time SpecTime TimeFacts.
Local Open Scope Z_scope.

(** C13.  For every existing UTC time in years 1000-9999: printing gives a text that parses, in every
    Go release, to the same instant cut to milliseconds, and printing that gives the same text. *)
Theorem C13_timestamp_round_trip : forall comma long t,
  real_time t -> 1000 <= t_year t <= 9999 ->
  parse_timestamp comma long (ts_string t) =
    Some (mkTime (t_year t) (t_month t) (t_day t) (t_hour t) (t_min t) (t_sec t)
                 (t_nsec t / 1000000 * 1000000) (t_off t))
  /\ ts_string (mkTime (t_year t) (t_month t) (t_day t) (t_hour t) (t_min t) (t_sec t)
                 (t_nsec t / 1000000 * 1000000) (t_off t)) = ts_string t.
Proof. exact round_trip. Qed.
Print Assumptions C13_timestamp_round_trip.

(** a leap day with nanoseconds *)
Definition leap_day : timestamp := mkTime 2024 2 29 23 59 59 123456789 0.
Example C13_hypotheses_met : real_time leap_day /\ 1000 <= t_year leap_day <= 9999.
Proof.
  split; [|simpl; lia]. split; [|simpl; lia]. exists 29. split; [|simpl; lia].
  apply md_29. split; [exists 506; reflexivity|]. intros [k Hk]. simpl in Hk. lia.
Qed.
Example C13_instance : ts_string leap_day = "2024-02-29T23:59:59.123Z"%string
  /\ parse_timestamp true true "2024-02-29T23:59:59.123Z" = Some (mkTime 2024 2 29 23 59 59 123000000 0).
Proof. split; vm_compute; reflexivity. Qed.

(** Outside those years, and for a time whose location is not UTC, the round trip fails: the year is
    printed without padding, and the zone is dropped. *)
Theorem C13_small_year_refuted : exists t, real_time t /\ t_year t = 999
  /\ forall comma long, parse_timestamp comma long (ts_string t) = None.
Proof.
  exists (mkTime 999 1 1 0 0 0 0 0). split; [|split; [reflexivity|intros [|] [|]; vm_compute; reflexivity]].
  split; [|simpl; lia]. exists 31. split; [apply md_31; simpl; auto|simpl; lia].
Qed.
Print Assumptions C13_small_year_refuted.
Theorem C13_zone_dropped_refuted : exists t t', t_off t = 3600
  /\ (forall comma long, parse_timestamp comma long (ts_string t) = Some t')
  /\ t_hour t' = t_hour t /\ t_off t' = 0.
Proof.
  exists (mkTime 2024 1 1 12 0 0 0 3600), (mkTime 2024 1 1 12 0 0 0 0).
  repeat split; intros [|] [|]; vm_compute; reflexivity.
Qed.
Print Assumptions C13_zone_dropped_refuted.

(** C14, first part: a text is accepted with result [t] exactly when it spells the existing instant [t]. *)
Theorem C14_timestamp_accepts_exactly : forall comma long s t,
  parse_timestamp comma long s = Some t <-> real_time t /\ time_text_v comma long s t.
Proof. exact parse_timestamp_iff. Qed.
Print Assumptions C14_timestamp_accepts_exactly.

(** C14, second part: the five spellings of UTC are interchangeable. *)
Theorem C14_utc_spelling_irrelevant : forall comma long body z1 z2,
  utc_suffix z1 -> utc_suffix z2 ->
  parse_timestamp comma long (body +++ z1) = parse_timestamp comma long (body +++ z2).
Proof. exact parse_suffix_irrelevant. Qed.
Print Assumptions C14_utc_spelling_irrelevant.

(** C14, consequence: no text is read as two instants. *)
Theorem C14_text_denotes_one_instant : forall comma long s t t',
  real_time t -> time_text_v comma long s t -> real_time t' -> time_text_v comma long s t' -> t = t'.
Proof.
  intros ck lf s t t' H1 H2 H3 H4.
  assert (E1 : parse_timestamp ck lf s = Some t) by (apply parse_timestamp_iff; auto).
  assert (E2 : parse_timestamp ck lf s = Some t') by (apply parse_timestamp_iff; auto). congruence.
Qed.
Print Assumptions C14_text_denotes_one_instant.

Example C14_accepts : parse_timestamp true true "2024-02-29T07:00:00+0000" = Some (mkTime 2024 2 29 7 0 0 0 0).
Proof. vm_compute; reflexivity. Qed.
Example C14_rejects_unreal : parse_timestamp true true "2023-02-29T07:00:00Z" = None
  /\ parse_timestamp true true "2024-02-29T24:00:00Z" = None
  /\ parse_timestamp true true "2024-02-29T07:00:00+01:00" = None.
Proof. vm_compute; auto. Qed.
