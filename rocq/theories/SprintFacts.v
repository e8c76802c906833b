(** Numbers printed in decimal, and that there is one way of printing each. *)
From Coq Require Import DecimalString DecimalFacts DecimalPos Decimal.
From Verif Require Import GoStr Value Schema Time OpenApi SpecTime SpecTrace TimeFacts GoReceive.
Local Open Scope Z_scope.

Lemma dv_uint u : forall a, dv (Zpos a) (NilEmpty.string_of_uint u) = Some (Zpos (Pos.of_uint_acc u a)).
Proof.
  induction u as [|u IH|u IH|u IH|u IH|u IH|u IH|u IH|u IH|u IH|u IH]; intros a; [reflexivity|..];
    cbn [NilEmpty.string_of_uint dv digit_val Pos.of_uint_acc];
    (match goal with |- match ?x with _ => _ end = _ => let v := eval vm_compute in x in change x with v end; cbv iota; rewrite <- IH; f_equal; lia).
Qed.
Lemma dv_uint_0 u : dv 0 (NilEmpty.string_of_uint u) = Some (Z.of_N (Pos.of_uint u)).
Proof.
  induction u as [|u IH|u IH|u IH|u IH|u IH|u IH|u IH|u IH|u IH|u IH]; [reflexivity|exact IH|..];
    cbn [NilEmpty.string_of_uint dv Pos.of_uint];
    (match goal with |- match ?x with _ => _ end = _ => let v := eval vm_compute in x in change x with v end; cbv iota; exact (dv_uint u _)).
Qed.
Lemma to_uint_text p : let u := Pos.to_uint p in
  digits (NilEmpty.string_of_uint u) (Zpos p) /\ forall r, NilEmpty.string_of_uint u = String "0" r -> r = "".
Proof.
  intros u. assert (V : Pos.of_uint u = Npos p) by apply Unsigned.of_to.
  assert (ND : forall r, u = D0 r -> False).
  { intros r E. assert (X := Unsigned.to_of u). rewrite V in X. change (N.to_uint (Npos p)) with u in X. rewrite E in X.
    unfold unorm in X. destruct (nzhead (D0 r)) eqn:Z; try discriminate.
    - injection X as ->. rewrite E in V. discriminate.
    - exact (nzhead_nonzero _ _ Z). }
  split.
  - apply digits_dv. split; [|rewrite dv_uint_0, V; reflexivity]. intros E. destruct u; try discriminate.
  - intros r E. destruct u; try discriminate. destruct (ND _ eq_refl).
Qed.
Lemma sprint_numeral z : numeral (sprint z) z.
Proof.
  unfold sprint. destruct z as [|p|p].
  - exists "0". split; [apply (dg_one "0"%char 0); [lia|reflexivity]|]. split; [intros r [= <-]; reflexivity|]. right. split; [lia|reflexivity].
  - destruct (to_uint_text p) as [D N]. exists (NilEmpty.string_of_uint (Pos.to_uint p)). split; [exact D|]. split; [exact N|].
    right. split; [lia|]. cbn [Z.to_int NilZero.string_of_int NilZero.string_of_uint].
    destruct (Pos.to_uint p) eqn:E; try reflexivity. exfalso. exact (Unsigned.to_uint_nonnil p E).
  - destruct (to_uint_text p) as [D N]. exists (NilEmpty.string_of_uint (Pos.to_uint p)). split; [exact D|]. split; [exact N|].
    left. split; [lia|]. cbn [Z.to_int NilZero.string_of_int NilZero.string_of_uint].
    destruct (Pos.to_uint p) eqn:E; try reflexivity. exfalso. exact (Unsigned.to_uint_nonnil p E).
Qed.
(** one numeral for each number *)
Definition canonical (s : string) : Prop := forall r, s = String "0" r -> r = "".
Lemma ascii_48 c n : Z.of_nat (nat_of_ascii c) = 48 + n -> forall c', Z.of_nat (nat_of_ascii c') = 48 + n -> c = c'.
Proof. intros A c' B. rewrite <- (ascii_nat_embedding c), <- (ascii_nat_embedding c'). f_equal. lia. Qed.
Lemma canonical_prefix s c : s <> "" -> canonical (s +++ String c "") -> canonical s /\ forall r, s <> String "0" r.
Proof.
  intros N C. assert (X : forall r, s <> String "0" r).
  { intros r ->. assert (E := C _ eq_refl). destruct r; discriminate. }
  split; [|exact X]. intros r E. destruct (X _ E).
Qed.
Lemma digits_positive s n : digits s n -> canonical s -> (forall r, s <> String "0" r) -> 1 <= n.
Proof.
  induction 1 as [c n B E|s m c n D IH B E]; intros C N.
  - assert (n <> 0); [|lia]. intros ->. apply (N ""). f_equal. apply (ascii_48 _ 0 E). reflexivity.
  - destruct (canonical_prefix s c (proj1 (proj1 (digits_dv _ _) D)) C) as [C' N']. specialize (IH C' N'). lia.
Qed.
Lemma digits_canonical s n : digits s n -> canonical s -> forall s', digits s' n -> canonical s' -> s = s'.
Proof.
  assert (NE : forall s n, digits s n -> s <> "") by (intros s0 n0 D; apply digits_dv in D; tauto).
  induction 1 as [c n B E|s m c n D IH B E]; intros C s' D' C'.
  - inversion D' as [c' n' B' E'|s0 m' c' n' D0 B' E']; subst.
    + f_equal. exact (ascii_48 _ _ E _ E').
    + destruct (canonical_prefix _ _ (NE _ _ D0) C') as [C0 N0]. assert (X := digits_positive _ _ D0 C0 N0). lia.
  - destruct (canonical_prefix _ _ (NE _ _ D) C) as [C0 N0]. assert (X := digits_positive _ _ D C0 N0).
    inversion D' as [c' n' B' E'|s0 m' c' n' D0 B' E']; subst; [lia|].
    destruct (canonical_prefix _ _ (NE _ _ D0) C') as [C1 N1].
    assert (m' = m /\ n' = n) as [-> ->] by lia. f_equal; [apply IH; assumption|]. f_equal. exact (ascii_48 _ _ E _ E').
Qed.
Lemma numeral_inj s s' z : numeral s z -> numeral s' z -> s = s'.
Proof.
  intros (d & D & C & [[N ->]|[N ->]]) (d' & D' & C' & [[N' ->]|[N' ->]]); try lia; [f_equal|]; eapply digits_canonical; eassumption.
Qed.
Lemma sprint_unique s z : numeral s z <-> s = sprint z.
Proof. split; [intros H; exact (numeral_inj _ _ _ H (sprint_numeral z))|intros ->; apply sprint_numeral]. Qed.
Lemma sprint_inj a b : sprint a = sprint b -> a = b.
Proof. intros E. apply (numeral_fun (sprint a)); [apply sprint_numeral|rewrite E; apply sprint_numeral]. Qed.
Lemma sprint_default z : sprint z <> "default".
Proof.
  intros E. assert (X := sprint_numeral z). rewrite E in X. destruct X as (d & D & _ & [[_ F]|[_ F]]); [destruct d; discriminate|].
  subst d. apply digits_dv in D as [_ D]. discriminate.
Qed.
