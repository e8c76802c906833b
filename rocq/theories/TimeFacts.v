(** Proofs about timestamps. *)
From Verif Require Import GoStr Value Time SpecTime.
From Coq Require Import ZifyBool ZifyNat.
Local Open Scope Z_scope.
Arguments Z.mul : simpl never.
Arguments Z.add : simpl never.
Arguments Z.sub : simpl never.
Arguments Z.pow : simpl never.

(** ** digits *)
Lemma digit_val_Some c x :
  digit_val c = Some x <-> 0 <= x < 10 /\ Z.of_nat (nat_of_ascii c) = 48 + x.
Proof.
  unfold digit_val, is_digit, ch_in.
  change (nat_of_ascii "0") with 48%nat. change (nat_of_ascii "9") with 57%nat.
  destruct ((48 <=? nat_of_ascii c)%nat && (nat_of_ascii c <=? 57)%nat) eqn:E.
  - split; [intro H; injection H as <-; lia|intros [H1 H2]; f_equal; lia].
  - split; [discriminate|lia].
Qed.
Lemma digit_val_None c : digit_val c = None <-> is_digit c = false.
Proof. unfold digit_val. destruct (is_digit c); split; congruence. Qed.

Fixpoint dv (acc : Z) (s : string) : option Z :=
  match s with
  | EmptyString => Some acc
  | String c r => match digit_val c with Some x => dv (10 * acc + x) r | None => None end
  end.

Lemma dv_snoc acc s c :
  dv acc (s +++ String c EmptyString) =
  match dv acc s with
  | Some m => match digit_val c with Some x => Some (10 * m + x) | None => None end
  | None => None
  end.
Proof.
  revert acc; induction s as [|a s IH]; intros acc; simpl.
  - destruct (digit_val c); reflexivity.
  - destruct (digit_val a); [apply IH|reflexivity].
Qed.

Lemma string_rev_ind (P : string -> Prop) :
  P EmptyString -> (forall s c, P s -> P (s +++ String c EmptyString)) -> forall s, P s.
Proof.
  intros H0 Hs.
  assert (H : forall n s, String.length s = n -> P s).
  { induction n as [|n IH]; intros s Hl.
    - destruct s; [exact H0|discriminate].
    - assert (Hd : exists t c, s = t +++ String c EmptyString).
      { clear -Hl. revert n Hl. induction s as [|a s IHs]; intros n Hl; [discriminate|].
        destruct s as [|b s].
        - now exists EmptyString, a.
        - simpl in Hl. destruct n as [|n]; [discriminate|].
          destruct (IHs n) as (t & c & E); [simpl; congruence|].
          exists (String a t), c. simpl. now rewrite <- E. }
      destruct Hd as (t & c & ->). apply Hs. apply IH.
      rewrite append_length in Hl. simpl in Hl. lia. }
  intros s. now apply (H (String.length s)).
Qed.

Lemma digits_dv s n : digits s n <-> s <> EmptyString /\ dv 0 s = Some n.
Proof.
  split.
  - induction 1 as [c n Hn Hc|s m c n Hd [IH1 IH2] Hn Hc].
    + split; [discriminate|]. simpl. rewrite (proj2 (digit_val_Some c n)) by auto. f_equal; lia.
    + split; [destruct s; discriminate|]. rewrite dv_snoc, IH2.
      rewrite (proj2 (digit_val_Some c n)) by auto. reflexivity.
  - revert n. induction s as [|s c IH] using string_rev_ind; intros n [Hne Hd]; [congruence|].
    rewrite dv_snoc in Hd. destruct (dv 0 s) as [m|] eqn:E; [|discriminate].
    destruct (digit_val c) as [x|] eqn:Ex; [|discriminate]. injection Hd as <-.
    apply digit_val_Some in Ex. destruct s as [|a s].
    + simpl in E. injection E as <-. simpl. replace (0 + x) with x by lia. constructor; tauto.
    + apply dg_snoc; [|tauto|tauto]. apply IH. split; [discriminate|reflexivity].
Qed.

Lemma digits_nonneg s n : digits s n -> 0 <= n.
Proof. induction 1; lia. Qed.

Lemma dv_bound acc s n : 0 <= acc -> dv acc s = Some n ->
  acc * 10 ^ Z.of_nat (String.length s) <= n < (acc + 1) * 10 ^ Z.of_nat (String.length s).
Proof.
  revert acc; induction s as [|c s IH]; intros acc Ha; simpl String.length.
  - cbn [dv]. intro H; injection H as <-. change (10 ^ Z.of_nat 0) with 1. lia.
  - cbn [dv]. destruct (digit_val c) as [x|] eqn:E; [|discriminate]. intro H.
    apply digit_val_Some in E. apply IH in H; [|lia].
    replace (Z.of_nat (S (String.length s))) with (Z.of_nat (String.length s) + 1) by lia.
    rewrite Z.pow_add_r by lia. change (10 ^ 1) with 10.
    assert (0 < 10 ^ Z.of_nat (String.length s)) by (apply Z.pow_pos_nonneg; lia). nia.
Qed.
Lemma digits_bound s n : digits s n -> 0 <= n < 10 ^ Z.of_nat (String.length s).
Proof. intro H. apply digits_dv in H. destruct H as [_ H].
  apply dv_bound in H; [|lia]. rewrite Z.mul_0_l, Z.add_0_l, Z.mul_1_l in H. exact H. Qed.

Lemma Some_inj {A} (a b : A) : Some a = Some b -> a = b.
Proof. congruence. Qed.

(** ** the pieces of time_parse *)
Lemma getnum_true s n r :
  getnum s true = Some (n, r) <-> exists p, s = p +++ r /\ String.length p = 2%nat /\ digits p n.
Proof.
  split.
  - destruct s as [|a [|b s]]; simpl; try discriminate.
    + destruct (digit_val a); discriminate.
    + destruct (digit_val a) as [x|] eqn:Ea; [|discriminate].
      destruct (digit_val b) as [y|] eqn:Eb; [|discriminate].
      intro H; injection H as <- <-. exists (String a (String b EmptyString)).
      split; [reflexivity|]. split; [reflexivity|]. apply digits_dv. split; [discriminate|].
      cbn [dv]. rewrite Ea, Eb. f_equal; lia.
  - intros (p & -> & Hl & Hd). destruct p as [|a [|b [|c p]]]; try discriminate.
    apply digits_dv in Hd. destruct Hd as [_ Hd]. cbn [dv] in Hd. cbn [String.append getnum].
    destruct (digit_val a) as [x|]; [|discriminate].
    destruct (digit_val b) as [y|]; [|discriminate].
    apply Some_inj in Hd. subst n. apply f_equal. apply (f_equal2 pair); [lia|reflexivity].
Qed.

Definition no_digit_first (s : string) : Prop :=
  match s with String c _ => is_digit c = false | EmptyString => True end.

Lemma getnum_false s n r :
  getnum s false = Some (n, r) <->
  exists p, s = p +++ r /\ digits p n /\
    (String.length p = 2%nat \/ (String.length p = 1%nat /\ no_digit_first r)).
Proof.
  split.
  - destruct s as [|a [|b s]]; simpl; try discriminate.
    + destruct (digit_val a) as [x|] eqn:Ea; [|discriminate].
      intro H; injection H as <- <-. exists (String a EmptyString).
      split; [reflexivity|]. split; [|right; split; [reflexivity|exact I]].
      apply digits_dv. split; [discriminate|]. cbn [dv]. rewrite Ea. f_equal; lia.
    + destruct (digit_val a) as [x|] eqn:Ea; [|discriminate].
      destruct (digit_val b) as [y|] eqn:Eb.
      * intro H; injection H as <- <-. exists (String a (String b EmptyString)).
        split; [reflexivity|]. split; [|left; reflexivity]. apply digits_dv. split; [discriminate|].
        cbn [dv]. rewrite Ea, Eb. f_equal; lia.
      * intro H; injection H as <- <-. exists (String a EmptyString).
        split; [reflexivity|]. split.
        -- apply digits_dv. split; [discriminate|]. cbn [dv]. rewrite Ea. f_equal; lia.
        -- right. split; [reflexivity|]. simpl. now apply digit_val_None.
  - intros (p & -> & Hd & Hl). apply digits_dv in Hd. destruct Hd as [_ Hd].
    destruct Hl as [Hl|[Hl Hn]].
    + destruct p as [|a [|b [|c p]]]; try discriminate. cbn [dv] in Hd. cbn [String.append getnum].
      destruct (digit_val a) as [x|]; [|discriminate].
      destruct (digit_val b) as [y|]; [|discriminate].
      apply Some_inj in Hd. subst n. apply f_equal. apply (f_equal2 pair); [lia|reflexivity].
    + destruct p as [|a [|b p]]; try discriminate. cbn [dv] in Hd. cbn [String.append getnum].
      destruct (digit_val a) as [x|]; [|discriminate]. apply Some_inj in Hd. subst n.
      destruct r as [|b r]; [apply f_equal; apply (f_equal2 pair); [lia|reflexivity]|]. simpl in Hn. apply digit_val_None in Hn.
      rewrite Hn. apply f_equal. apply (f_equal2 pair); [lia|reflexivity].
Qed.

Lemma getyear_spec s n r :
  getyear s = Some (n, r) <-> exists p, s = p +++ r /\ String.length p = 4%nat /\ digits p n.
Proof.
  split.
  - destruct s as [|a [|b [|c [|d s]]]]; simpl; try discriminate.
    destruct (digit_val a) as [w|] eqn:Ea; [|discriminate].
    destruct (digit_val b) as [x|] eqn:Eb; [|discriminate].
    destruct (digit_val c) as [y|] eqn:Ec; [|discriminate].
    destruct (digit_val d) as [z|] eqn:Ed; [|discriminate].
    intro H; injection H as <- <-. exists (String a (String b (String c (String d EmptyString)))).
    split; [reflexivity|]. split; [reflexivity|]. apply digits_dv. split; [discriminate|].
    cbn [dv]. rewrite Ea, Eb, Ec, Ed. f_equal; lia.
  - intros (p & -> & Hl & Hd). destruct p as [|a [|b [|c [|d [|e p]]]]]; try discriminate.
    apply digits_dv in Hd. destruct Hd as [_ Hd]. cbn [dv] in Hd. cbn [String.append getyear].
    destruct (digit_val a) as [w|]; [|discriminate].
    destruct (digit_val b) as [x|]; [|discriminate].
    destruct (digit_val c) as [y|]; [|discriminate].
    destruct (digit_val d) as [z|]; [|discriminate].
    apply Some_inj in Hd. subst n. apply f_equal. apply (f_equal2 pair); [lia|reflexivity].
Qed.

Lemma skip_spec c s r : skip c s = Some r <-> s = String c r.
Proof.
  unfold skip. destruct s as [|a s]; [split; discriminate|].
  destruct (Ascii.eqb a c) eqn:E.
  - apply ceqb_eq in E. subst. split; [intro H; injection H as <-; reflexivity|].
    intro H; injection H as <-; reflexivity.
  - apply ceqb_neq in E. split; [discriminate|]. intro H. congruence.
Qed.

(** ** fractions *)
Definition lval (acc : Z) (l : list Z) : Z := fold_left (fun a x => 10 * a + x) l acc.
Lemma lval_acc l : forall acc, lval acc l = acc * 10 ^ Z.of_nat (length l) + lval 0 l.
Proof.
  unfold lval. induction l as [|x l IH]; intros acc.
  - simpl. change (10 ^ Z.of_nat 0) with 1. lia.
  - cbn [fold_left length]. rewrite (IH (10 * acc + x)), (IH (10 * 0 + x)).
    replace (Z.of_nat (S (length l))) with (Z.of_nat (length l) + 1) by lia.
    rewrite Z.pow_add_r by lia. change (10 ^ 1) with 10. lia.
Qed.

Lemma nanos_short k : forall l, (length l <= k)%nat ->
  nanos k l = lval 0 l * 10 ^ (Z.of_nat k - Z.of_nat (length l)).
Proof.
  induction k as [|k IH]; intros l Hl.
  - destruct l; [reflexivity|simpl in Hl; lia].
  - destruct l as [|x l].
    + cbn [nanos]. unfold lval. simpl fold_left. lia.
    + cbn [nanos]. simpl in Hl. rewrite IH by lia.
      unfold lval at 2. cbn [fold_left]. fold (lval (10 * 0 + x) l). rewrite (lval_acc l (10 * 0 + x)).
      cbn [length].
      replace (Z.of_nat (S k) - Z.of_nat (S (length l))) with (Z.of_nat k - Z.of_nat (length l)) by lia.
      rewrite Z.mul_add_distr_r.
      replace (10 ^ Z.of_nat k) with (10 ^ Z.of_nat (length l) * 10 ^ (Z.of_nat k - Z.of_nat (length l))).
      * lia.
      * rewrite <- Z.pow_add_r by lia. f_equal. lia.
Qed.
Lemma nanos_long k : forall l l', length l = k -> nanos k (l ++ l') = lval 0 l.
Proof.
  intros l l' Hl. transitivity (nanos k l).
  - revert l Hl. induction k as [|k IH]; intros l Hl; [destruct l; [reflexivity|discriminate]|].
    destruct l as [|x l]; [discriminate|]. cbn [app nanos]. rewrite IH by (simpl in Hl; lia). reflexivity.
  - rewrite nanos_short by lia. rewrite Hl, Z.sub_diag. change (10 ^ 0) with 1. lia.
Qed.

(** text of a digit list *)
Inductive dtext : string -> list Z -> Prop :=
| dt_nil : dtext EmptyString []
| dt_cons c s x l : digit_val c = Some x -> dtext s l -> dtext (String c s) (x :: l).

Lemma dtext_dv s l : dtext s l -> forall acc, dv acc s = Some (lval acc l).
Proof.
  induction 1 as [|c s x l Hc Hd IH]; intros acc; simpl; [reflexivity|].
  rewrite Hc, IH. reflexivity.
Qed.
Lemma dtext_length s l : dtext s l -> String.length s = length l.
Proof. induction 1; simpl; congruence. Qed.
Lemma dv_dtext acc s n : dv acc s = Some n -> exists l, dtext s l.
Proof.
  revert acc; induction s as [|c s IH]; intros acc; simpl.
  - intros _. exists []. constructor.
  - destruct (digit_val c) as [x|] eqn:E; [|discriminate]. intro H.
    destruct (IH _ H) as [l Hl]. exists (x :: l). now constructor.
Qed.
Lemma dtext_app s1 l1 s2 l2 : dtext s1 l1 -> dtext s2 l2 -> dtext (s1 +++ s2) (l1 ++ l2).
Proof. induction 1; simpl; intro H2; [exact H2|constructor; auto]. Qed.
Lemma dtext_split s l k : dtext s l -> dtext (stake k s) (firstn k l) /\ dtext (sdrop k s) (skipn k l).
Proof.
  intro H. revert k. induction H as [|c s x l Hc Hd IH]; intros k.
  - destruct k; split; constructor.
  - destruct k as [|k]; simpl; [split; constructor; assumption|].
    destruct (IH k). split; [constructor|]; assumption.
Qed.

Lemma take_digits_spec : forall s lim l rest,
  take_digits lim s = (l, rest) ->
  exists p, s = p +++ rest /\ dtext p l /\
    (match lim with Some n => (length l <= n)%nat /\ (length l = n \/ no_digit_first rest)
                  | None => no_digit_first rest end).
Proof.
  induction s as [|c s IH]; intros lim l rest.
  - destruct lim as [[|n]|]; simpl; intro H; injection H as <- <-;
      exists EmptyString; (split; [reflexivity|split; [constructor|]]); simpl; auto; lia.
  - destruct lim as [[|n]|]; cbn [take_digits option_map pred].
    + intro H; injection H as <- <-. exists EmptyString.
      split; [reflexivity|split; [constructor|]]; simpl; auto.
    + destruct (digit_val c) as [x|] eqn:E.
      * destruct (take_digits (Some n) s) as [l' r'] eqn:Et. intro H; injection H as <- <-.
        apply IH in Et. destruct Et as (p & -> & Hp & Hl & Hr).
        exists (String c p). split; [reflexivity|]. split; [now constructor|]. simpl. split; [lia|].
        destruct Hr; [left; lia|right; assumption].
      * intro H; injection H as <- <-. exists EmptyString.
        split; [reflexivity|split; [constructor|]]. split; [simpl; lia|]. right. simpl.
        now apply digit_val_None.
    + destruct (digit_val c) as [x|] eqn:E.
      * destruct (take_digits None s) as [l' r'] eqn:Et. intro H; injection H as <- <-.
        apply IH in Et. destruct Et as (p & -> & Hp & Hr).
        exists (String c p). split; [reflexivity|]. split; [now constructor|]. exact Hr.
      * intro H; injection H as <- <-. exists EmptyString.
        split; [reflexivity|split; [constructor|]]. simpl. now apply digit_val_None.
Qed.

Lemma take_digits_complete p l rest : dtext p l -> no_digit_first rest ->
  take_digits None (p +++ rest) = (l, rest).
Proof.
  intros Hp Hr. induction Hp as [|c s x l Hc Hd IH]; simpl.
  - destruct rest as [|c r]; [reflexivity|]. simpl in *. apply digit_val_None in Hr. now rewrite Hr.
  - rewrite Hc, IH. reflexivity.
Qed.
Lemma take_digits_complete_lim p l rest n : dtext p l -> no_digit_first rest -> (length l <= n)%nat ->
  take_digits (Some n) (p +++ rest) = (l, rest).
Proof.
  intros Hp Hr. revert n. induction Hp as [|c s x l Hc Hd IH]; intros n Hn; simpl.
  - destruct rest as [|c r]; [now destruct n|]. destruct n; [reflexivity|]. simpl in *.
    apply digit_val_None in Hr. now rewrite Hr.
  - simpl in Hn. destruct n as [|n]; [lia|]. rewrite Hc. simpl. rewrite IH by lia. reflexivity.
Qed.

(** Which fractions the given Go version reads. *)
Definition frac_readable (ck lf : bool) (fs : string) : Prop :=
  fs = EmptyString \/
  exists c s, fs = String c s /\ frac_sep ck c = true /\ (lf = true \/ (String.length s <= 9)%nat).

Lemma frac_readable_spec ck lf fs : frac_readable ck lf fs <-> version_reads ck lf fs.
Proof.
  unfold frac_readable, version_reads. split; (intros [H|(c & s & E & Hc & Hl)]; [now left|right; exists c, s]);
    (split; [exact E|split; [|exact Hl]]).
  - unfold frac_sep in Hc. apply orb_true_iff in Hc. destruct Hc as [Hc|Hc]; [left; now apply ceqb_eq|].
    apply andb_true_iff in Hc. destruct Hc as [Hk Hc]. right. split; [exact Hk|now apply ceqb_eq].
  - unfold frac_sep. destruct Hc as [->|[-> ->]]; reflexivity.
Qed.

Lemma parse_frac_sound ck lf s ns r :
  parse_frac ck lf s = (ns, r) -> exists f, s = f +++ r /\ fraction f ns /\ frac_readable ck lf f.
Proof.
  unfold parse_frac. destruct s as [|c [|d s]].
  - intro H; injection H as <- <-. exists EmptyString. split; [reflexivity|split; [constructor|now left]].
  - intro H; injection H as <- <-. exists EmptyString. split; [reflexivity|split; [constructor|now left]].
  - destruct (frac_sep ck c && is_digit d) eqn:E.
    2:{ intro H; injection H as <- <-. exists EmptyString. split; [reflexivity|split; [constructor|now left]]. }
    apply andb_true_iff in E. destruct E as [Es Ed].
    assert (Hc : In c ["."; ","]%char).
    { unfold frac_sep in Es. apply orb_true_iff in Es. destruct Es as [Es|Es].
      - apply ceqb_eq in Es. left; auto.
      - apply andb_true_iff in Es. destruct Es as [_ Es]. apply ceqb_eq in Es. right; left; auto. }
    destruct (take_digits _ (String d s)) as [l rest] eqn:Et. intro H.
    apply pair_equal_spec in H; destruct H as [<- <-].
    pose proof Et as Et'. apply take_digits_spec in Et'. destruct Et' as (p & Hs & Hp & Hlim).
    assert (Hpne : p <> EmptyString).
    { intros ->. simpl in Hs. inversion Hp; subst.
      destruct lf; simpl in Hlim.
      - rewrite Ed in Hlim. discriminate.
      - destruct Hlim as [_ [Hf|Hf]]; [discriminate|]. rewrite Ed in Hf. discriminate. }
    rewrite Hs. exists (String c p). split; [reflexivity|].
    pose proof (dtext_length _ _ Hp) as Hlen.
    split; [|right; exists c, p; split; [reflexivity|split; [exact Es|]]; destruct lf; [now left|right; lia]].
    destruct (le_lt_dec (length l) 9) as [Hl|Hl].
    + rewrite nanos_short by lia. rewrite <- Hlen.
      apply fr_short; [exact Hc| |lia]. apply digits_dv. split; [exact Hpne|]. now apply dtext_dv.
    + destruct (dtext_split _ _ 9 Hp) as [H1 H2].
      rewrite <- (firstn_skipn 9 l). rewrite nanos_long by (apply firstn_length_le; lia).
      rewrite <- (stake_sdrop 9 p).
      apply fr_long; [exact Hc| | |].
      * apply digits_dv. split; [|now apply dtext_dv].
        intro E. apply dtext_length in H1. rewrite E in H1. rewrite firstn_length_le in H1 by lia. discriminate.
      * apply dtext_length in H1. rewrite H1. apply firstn_length_le. lia.
      * exists (lval 0 (skipn 9 l)). apply digits_dv. split; [|now apply dtext_dv].
        intro E. apply dtext_length in H2. rewrite E, skipn_length in H2. cbn [String.length] in H2. lia.
Qed.

Lemma fraction_bound f ns : fraction f ns -> 0 <= ns < 1000000000.
Proof.
  intro H. inversion H as [|c s n Hc Hd Hl|c s r n Hc Hd Hl Hr]; subst.
  - lia.
  - apply digits_bound in Hd.
    assert (E : 10 ^ Z.of_nat (String.length s) * 10 ^ (9 - Z.of_nat (String.length s)) = 1000000000).
    { rewrite <- Z.pow_add_r by lia.
      replace (Z.of_nat (String.length s) + (9 - Z.of_nat (String.length s))) with 9 by lia. reflexivity. }
    assert (0 < 10 ^ (9 - Z.of_nat (String.length s))) by (apply Z.pow_pos_nonneg; lia). nia.
  - apply digits_bound in Hd. rewrite Hl in Hd. exact Hd.
Qed.

(** ** calendar *)
Lemma mod_divides a b : 0 < a -> (b mod a = 0 <-> divides a b).
Proof.
  intro Ha. unfold divides. split.
  - intro H. apply Z.div_exact in H; [|lia]. exists (b / a). lia.
  - intros [k ->]. apply Z.mod_mul. lia.
Qed.
Lemma is_leap_spec y : is_leap y = true <-> leap_year y.
Proof.
  unfold is_leap, leap_year. rewrite andb_true_iff, orb_true_iff, negb_true_iff, !Z.eqb_eq, Z.eqb_neq.
  rewrite <- !mod_divides by lia. destruct (Z.eq_dec (y mod 100) 0); tauto.
Qed.
Lemma days_in_spec y m n : 1 <= m <= 12 -> (month_days y m n <-> n = days_in m y).
Proof.
  intros Hm. unfold days_in. split.
  - intro H. inversion H as [m0 Hi|m0 Hi|Hl|Hl]; subst; simpl in *.
    + destruct Hi as [<-|[<-|[<-|[<-|[<-|[<-|[<-|[]]]]]]]]; reflexivity.
    + destruct Hi as [<-|[<-|[<-|[<-|[]]]]]; reflexivity.
    + apply is_leap_spec in Hl. now rewrite Hl.
    + destruct (is_leap y) eqn:E; [|reflexivity]. apply is_leap_spec in E. tauto.
  - intros ->. destruct (m =? 2) eqn:E2.
    + replace m with 2 by lia. destruct (is_leap y) eqn:E.
      * constructor. now apply is_leap_spec.
      * constructor. intro Hl. apply is_leap_spec in Hl. congruence.
    + destruct ((m =? 4) || (m =? 6) || (m =? 9) || (m =? 11)) eqn:E4.
      * constructor. simpl. lia.
      * constructor. simpl. lia.
Qed.
Lemma month_days_range y m n : month_days y m n -> 1 <= m <= 12.
Proof. intro H; inversion H; subst; simpl in *; lia. Qed.

(** ** time_parse *)
Definition base_text (ck lf : bool) (s : string) (t : timestamp) : Prop :=
  exists ys ms ds hs mis ss fs,
    s = ys +++ "-" +++ ms +++ "-" +++ ds +++ "T" +++ hs +++ ":" +++ mis +++ ":" +++ ss +++ fs
    /\ digits ys (t_year t) /\ String.length ys = 4%nat
    /\ digits ms (t_month t) /\ String.length ms = 2%nat
    /\ digits ds (t_day t) /\ String.length ds = 2%nat
    /\ digits hs (t_hour t) /\ (String.length hs = 1%nat \/ String.length hs = 2%nat)
    /\ digits mis (t_min t) /\ String.length mis = 2%nat
    /\ digits ss (t_sec t) /\ String.length ss = 2%nat
    /\ fraction fs (t_nsec t) /\ frac_readable ck lf fs.

Lemma obind_Some {A B} (o : option A) (f : A -> option B) b :
  obind o f = Some b <-> exists a, o = Some a /\ f a = Some b.
Proof.
  destruct o; simpl; split.
  - intro H; eauto.
  - intros (x & Hx & Hf). injection Hx as <-. exact Hf.
  - discriminate.
  - intros (x & Hx & _). discriminate.
Qed.

Lemma time_parse_sound ck lf s t : time_parse ck lf s = Some t ->
  real_time t /\ exists b, s = b +++ "Z" /\ base_text ck lf b t.
Proof.
  unfold time_parse. intro H.
  apply obind_Some in H; destruct H as ([y s1] & H1 & H).
  apply obind_Some in H; destruct H as (s2 & H2 & H).
  apply obind_Some in H; destruct H as ([mo s3] & H3 & H).
  apply obind_Some in H; destruct H as (s4 & H4 & H).
  apply obind_Some in H; destruct H as ([d s5] & H5 & H).
  apply obind_Some in H; destruct H as (s6 & H6 & H).
  apply obind_Some in H; destruct H as ([h s7] & H7 & H).
  apply obind_Some in H; destruct H as (s8 & H8 & H).
  apply obind_Some in H; destruct H as ([mi s11] & H11 & H).
  apply obind_Some in H; destruct H as (s12 & H12 & H).
  apply obind_Some in H; destruct H as ([sec s13] & H13 & H).
  match type of H with (let '(_, _) := parse_frac ck lf ?x in _) = _ =>
    destruct (parse_frac ck lf x) as [ns s9] eqn:Ef end.
  apply obind_Some in H. destruct H as (s10 & H10 & H).
  destruct s10 as [|? ?]; [|discriminate].
  repeat match goal with
  | [ X : getyear _ = Some _ |- _ ] => apply getyear_spec in X; destruct X as (ys & ? & ? & ?)
  | [ X : skip _ _ = Some _ |- _ ] => apply skip_spec in X
  | [ X : getnum _ false = Some _ |- _ ] => apply getnum_false in X; destruct X as (hs & ? & ? & ?)
  end.
  repeat match goal with
  | [ X : getnum _ true = Some _ |- _ ] => apply getnum_true in X; destruct X as (? & ? & ? & ?)
  end.
  apply parse_frac_sound in Ef. destruct Ef as (f & Ef & Hf & Hrd).
  match type of H with (if ?c then _ else _) = _ => destruct c eqn:Ec; [|discriminate] end.
  injection H as <-.
  repeat match goal with
  | [ X : digits _ ?n |- _ ] =>
      lazymatch goal with [ Y : 0 <= n |- _ ] => fail | _ => pose proof (digits_nonneg _ _ X) end
  end.
  pose proof (fraction_bound _ _ Hf).
  subst. split.
  - unfold real_time; cbn. split; [|lia].
    eexists. split; [apply days_in_spec; [lia|reflexivity]|lia].
  - eexists (_ +++ "-" +++ _ +++ "-" +++ _ +++ "T" +++ _ +++ ":" +++ _ +++ ":" +++ _ +++ _).
    split.
    2:{ unfold base_text; cbn. do 7 eexists. split; [reflexivity|].
        repeat (split; [eassumption|]). split; [tauto|].
        repeat (split; [eassumption|]). eassumption. }
    sapp. reflexivity.
Qed.


Lemma parse_frac_complete ck lf fs ns r :
  fraction fs ns -> frac_readable ck lf fs -> no_digit_first r ->
  (match r with String c _ => frac_sep ck c = false | _ => True end) ->
  parse_frac ck lf (fs +++ r) = (ns, r).
Proof.
  intros Hf Hr Hn Hsep. destruct Hr as [->|(c & s & -> & Hc & Hlen)].
  - inversion Hf; subst. simpl. unfold parse_frac. destruct r as [|c [|d r]]; try reflexivity.
    rewrite Hsep. reflexivity.
  - assert (Hd : exists l, dtext s l /\ s <> EmptyString /\ nanos 9 l = ns).
    { inversion Hf as [|c' s' n Hc' Hd Hl|c' s' r' n Hc' Hd Hl [m Hm]]; subst.
      - apply digits_dv in Hd. destruct Hd as [Hne Hd]. destruct (dv_dtext _ _ _ Hd) as [l Hl'].
        exists l. split; [exact Hl'|]. split; [exact Hne|].
        rewrite (dtext_dv _ _ Hl' 0) in Hd. injection Hd as <-.
        pose proof (dtext_length _ _ Hl') as E. rewrite nanos_short by lia. now rewrite E.
      - apply digits_dv in Hd. destruct Hd as [Hne Hd]. destruct (dv_dtext _ _ _ Hd) as [l Hl'].
        apply digits_dv in Hm. destruct Hm as [Hne' Hm]. destruct (dv_dtext _ _ _ Hm) as [l2 Hl2].
        exists (l ++ l2). split; [now apply dtext_app|]. split; [destruct s'; [congruence|discriminate]|].
        rewrite (dtext_dv _ _ Hl' 0) in Hd. injection Hd as <-.
        apply nanos_long. rewrite <- (dtext_length _ _ Hl'). exact Hl. }
    destruct Hd as (l & Hl & Hne & <-).
    destruct s as [|d s]; [congruence|].
    change (String c (String d s) +++ r) with (String c (String d (s +++ r))).
    unfold parse_frac. rewrite Hc.
    assert (Hdig : is_digit d = true).
    { inversion Hl as [|? ? ? ? Hx]; subst. destruct (is_digit d) eqn:E; [reflexivity|].
      apply digit_val_None in E. congruence. }
    rewrite Hdig. simpl andb. cbv iota.
    change (String d (s +++ r)) with (String d s +++ r).
    destruct Hlen as [->|Hlen].
    + rewrite (take_digits_complete _ _ _ Hl Hn). reflexivity.
    + destruct lf.
      * rewrite (take_digits_complete _ _ _ Hl Hn). reflexivity.
      * rewrite (take_digits_complete_lim _ _ _ 9 Hl Hn); [reflexivity|].
        rewrite <- (dtext_length _ _ Hl). exact Hlen.
Qed.

Lemma time_parse_complete ck lf t ys ms ds hs mis ss fs :
  digits ys (t_year t) -> String.length ys = 4%nat ->
  digits ms (t_month t) -> String.length ms = 2%nat ->
  digits ds (t_day t) -> String.length ds = 2%nat ->
  digits hs (t_hour t) -> (String.length hs = 1%nat \/ String.length hs = 2%nat) ->
  digits mis (t_min t) -> String.length mis = 2%nat ->
  digits ss (t_sec t) -> String.length ss = 2%nat ->
  fraction fs (t_nsec t) -> frac_readable ck lf fs -> real_time t ->
  time_parse ck lf
    ((ys +++ "-" +++ ms +++ "-" +++ ds +++ "T" +++ hs +++ ":" +++ mis +++ ":" +++ ss +++ fs) +++ "Z") = Some t.
Proof.
  intros Hy Ly Hm Lm Hd Ld Hh Lh Hmi Lmi Hs Ls Hf Hfr Ht.
  unfold time_parse.
  apply obind_Some. exists (t_year t, "-" +++ ms +++ "-" +++ ds +++ "T" +++ hs +++ ":" +++ mis +++ ":" +++ ss +++ fs +++ "Z").
  split. { apply getyear_spec. exists ys. sapp. auto. }
  cbv beta iota.
  apply obind_Some. exists (ms +++ "-" +++ ds +++ "T" +++ hs +++ ":" +++ mis +++ ":" +++ ss +++ fs +++ "Z").
  split; [reflexivity|].
  apply obind_Some. exists (t_month t, "-" +++ ds +++ "T" +++ hs +++ ":" +++ mis +++ ":" +++ ss +++ fs +++ "Z").
  split; [apply getnum_true; now exists ms|]. cbv beta iota.
  apply obind_Some. exists (ds +++ "T" +++ hs +++ ":" +++ mis +++ ":" +++ ss +++ fs +++ "Z").
  split; [reflexivity|].
  apply obind_Some. exists (t_day t, "T" +++ hs +++ ":" +++ mis +++ ":" +++ ss +++ fs +++ "Z").
  split; [apply getnum_true; now exists ds|]. cbv beta iota.
  apply obind_Some. exists (hs +++ ":" +++ mis +++ ":" +++ ss +++ fs +++ "Z").
  split; [reflexivity|].
  apply obind_Some. exists (t_hour t, ":" +++ mis +++ ":" +++ ss +++ fs +++ "Z").
  split. { apply getnum_false. exists hs. split; [reflexivity|]. split; [exact Hh|].
           destruct Lh; [right; split; [assumption|reflexivity]|left; assumption]. }
  cbv beta iota.
  apply obind_Some. exists (mis +++ ":" +++ ss +++ fs +++ "Z").
  split; [reflexivity|].
  apply obind_Some. exists (t_min t, ":" +++ ss +++ fs +++ "Z").
  split; [apply getnum_true; now exists mis|]. cbv beta iota.
  apply obind_Some. exists (ss +++ fs +++ "Z").
  split; [reflexivity|].
  apply obind_Some. exists (t_sec t, fs +++ "Z").
  split; [apply getnum_true; now exists ss|]. cbv beta iota.
  assert (Hz : frac_sep ck "Z" = false) by (destruct ck; reflexivity).
  rewrite (parse_frac_complete ck lf fs (t_nsec t) "Z" Hf Hfr); [|reflexivity|exact Hz].
  apply obind_Some. exists EmptyString. split; [reflexivity|].
  destruct Ht as ((n & Hn & Hdn) & H1 & H2 & H3 & H4 & H5).
  pose proof (month_days_range _ _ _ Hn) as Hmr. apply days_in_spec in Hn; [|exact Hmr]. subst n.
  match goal with |- (if ?c then _ else _) = _ => replace c with true by lia end.
  destruct t; simpl in *. congruence.
Qed.

(** ** ParseTimestamp *)
Lemma ends_Z_suffix b z : In z ["+00:00"; "-00:00"; "+0000"; "-0000"] ->
  (exists c, b +++ z = c +++ "Z") -> False.
Proof.
  intros Hz [c Hc].
  assert (Hl : exists z', z = z' +++ "0").
  { destruct Hz as [<-|[<-|[<-|[<-|[]]]]];
      [exists "+00:0"|exists "-00:0"|exists "+000"|exists "-000"]; reflexivity. }
  destruct Hl as [z' ->]. rewrite <- append_assoc in Hc.
  assert (forall x y, x +++ "0" = y +++ "Z" -> False) as K.
  { clear. induction x as [|a x IH]; intros y H; destruct y as [|b y]; simpl in H; try discriminate.
    - destruct y; discriminate.
    - destruct x; discriminate.
    - injection H as _ H. eauto. }
  eauto.
Qed.

Lemma time_parse_utc ck lf b z : In z ["+00:00"; "-00:00"; "+0000"; "-0000"] ->
  time_parse ck lf (b +++ z) = None.
Proof.
  intro Hz. destruct (time_parse ck lf (b +++ z)) as [t|] eqn:E; [|reflexivity].
  exfalso. apply time_parse_sound in E. destruct E as (_ & c & Hc & _).
  eapply ends_Z_suffix; eauto.
Qed.

Lemma has_suffix_false_other b z p : String.length z = String.length p -> z <> p ->
  has_suffix p (b +++ z) = false.
Proof.
  intros Hl Hne. destruct (has_suffix p (b +++ z)) eqn:E; [|reflexivity].
  exfalso. apply has_suffix_spec in E. destruct E as [r Hr].
  assert (b = r /\ z = p) as [_ ?]; [|contradiction].
  assert (Hb : String.length b = String.length r).
  { apply (f_equal String.length) in Hr. rewrite !append_length in Hr. lia. }
  clear -Hr Hb. revert r Hr Hb. induction b as [|a b IH]; intros [|c r] Hr Hb; simpl in *; try discriminate.
  - auto.
  - injection Hr as <- Hr. injection Hb as Hb. destruct (IH r Hr Hb) as [-> ->]. auto.
Qed.

Lemma parse_timestamp_suffix ck lf b z : In z ["Z"; "+00:00"; "-00:00"; "+0000"; "-0000"] ->
  z = "Z" \/ parse_timestamp ck lf (b +++ z) = time_parse ck lf (b +++ "Z").
Proof.
  intros [<-|Hz]; [now left|]. right. unfold parse_timestamp. rewrite time_parse_utc by exact Hz.
  assert (S6 : forall p, has_suffix p (b +++ p) = true).
  { intro p. apply has_suffix_spec. now exists b. }
  assert (T : forall p n, String.length p = n -> stake (String.length (b +++ p) - n) (b +++ p) = b).
  { intros p n <-. rewrite append_length, Nat.add_sub. apply stake_append. }
  assert (N5 : forall p, In p ["+0000"; "-0000"] ->
            has_suffix "+00:00" (b +++ p) = false /\ has_suffix "-00:00" (b +++ p) = false).
  { intros p Hp. split.
    - destruct (has_suffix "+00:00" (b +++ p)) eqn:E; [|reflexivity].
      exfalso. apply has_suffix_spec in E. destruct E as [r Hr].
      assert (Hx : has_suffix "0:00" (b +++ p) = true).
      { apply has_suffix_spec. exists (r +++ "+0"). rewrite append_assoc. exact Hr. }
      destruct Hp as [<-|[<-|[]]].
      + change "+0000" with ("+" +++ "0000") in Hx. rewrite <- append_assoc in Hx.
        rewrite has_suffix_false_other in Hx; [discriminate|reflexivity|discriminate].
      + change "-0000" with ("-" +++ "0000") in Hx. rewrite <- append_assoc in Hx.
        rewrite has_suffix_false_other in Hx; [discriminate|reflexivity|discriminate].
    - destruct (has_suffix "-00:00" (b +++ p)) eqn:E; [|reflexivity].
      exfalso. apply has_suffix_spec in E. destruct E as [r Hr].
      assert (Hx : has_suffix "0:00" (b +++ p) = true).
      { apply has_suffix_spec. exists (r +++ "-0"). rewrite append_assoc. exact Hr. }
      destruct Hp as [<-|[<-|[]]].
      + change "+0000" with ("+" +++ "0000") in Hx. rewrite <- append_assoc in Hx.
        rewrite has_suffix_false_other in Hx; [discriminate|reflexivity|discriminate].
      + change "-0000" with ("-" +++ "0000") in Hx. rewrite <- append_assoc in Hx.
        rewrite has_suffix_false_other in Hx; [discriminate|reflexivity|discriminate]. }
  destruct Hz as [<-|[<-|[<-|[<-|[]]]]].
  - rewrite S6. cbn [orb]. rewrite (T "+00:00" 6%nat eq_refl). reflexivity.
  - rewrite S6, orb_true_r. rewrite (T "-00:00" 6%nat eq_refl). reflexivity.
  - destruct (N5 "+0000") as [-> ->]; [simpl; auto|]. rewrite S6. cbn [orb]. rewrite (T "+0000" 5%nat eq_refl). reflexivity.
  - destruct (N5 "-0000") as [-> ->]; [simpl; auto|]. rewrite S6, orb_true_r. rewrite (T "-0000" 5%nat eq_refl). reflexivity.
Qed.

Lemma parse_timestamp_inv ck lf s t : parse_timestamp ck lf s = Some t ->
  exists b z, s = b +++ z /\ In z ["Z"; "+00:00"; "-00:00"; "+0000"; "-0000"]
    /\ time_parse ck lf (b +++ "Z") = Some t.
Proof.
  unfold parse_timestamp. destruct (time_parse ck lf s) as [t'|] eqn:E.
  - intro H; injection H as <-. pose proof (time_parse_sound _ _ _ _ E) as (_ & b & -> & _).
    exists b, "Z". simpl. auto.
  - assert (T : forall p, has_suffix p s = true -> s = stake (String.length s - String.length p) s +++ p).
    { intros p Hp. apply has_suffix_spec in Hp. destruct Hp as [r ->].
      rewrite append_length, Nat.add_sub, stake_append. reflexivity. }
    destruct (has_suffix "+00:00" s) eqn:E1.
    { cbn [orb]. intro H. exists (stake (String.length s - 6) s), "+00:00".
      split; [exact (T _ E1)|]. simpl; auto 8. }
    destruct (has_suffix "-00:00" s) eqn:E2.
    { cbn [orb]. intro H. exists (stake (String.length s - 6) s), "-00:00".
      split; [exact (T _ E2)|]. simpl; auto 8. }
    cbn [orb].
    destruct (has_suffix "+0000" s) eqn:E3.
    { cbn [orb]. intro H. exists (stake (String.length s - 5) s), "+0000".
      split; [exact (T _ E3)|]. simpl; auto 8. }
    destruct (has_suffix "-0000" s) eqn:E4.
    { cbn [orb]. intro H. exists (stake (String.length s - 5) s), "-0000".
      split; [exact (T _ E4)|]. simpl; auto 9. }
    discriminate.
Qed.

Lemma parse_timestamp_of_base ck lf b z t : In z ["Z"; "+00:00"; "-00:00"; "+0000"; "-0000"] ->
  time_parse ck lf (b +++ "Z") = Some t -> parse_timestamp ck lf (b +++ z) = Some t.
Proof.
  intros Hz Ht. destruct (parse_timestamp_suffix ck lf b z Hz) as [->|E].
  - unfold parse_timestamp. now rewrite Ht.
  - now rewrite E.
Qed.

(** ParseTimestamp accepts exactly the texts of real UTC instants. *)
Lemma parse_timestamp_iff ck lf s t :
  parse_timestamp ck lf s = Some t <-> real_time t /\ time_text_v ck lf s t.
Proof.
  split.
  - intro H. apply parse_timestamp_inv in H. destruct H as (b & z & -> & Hz & H).
    apply time_parse_sound in H. destruct H as (Hr & b' & Hb & Ht).
    apply append_inj_r in Hb. subst b'. split; [exact Hr|].
    destruct Ht as (ys & ms & ds & hs & mis & ss & fs & -> & Hrest).
    exists ys, ms, ds, hs, mis, ss, fs, z. split.
    + sapp. reflexivity.
    + unfold utc_suffix. destruct Hrest as (? & ? & ? & ? & ? & ? & ? & ? & ? & ? & ? & ? & ? & Hrd).
      apply frac_readable_spec in Hrd. repeat (split; [assumption|]). assumption.
  - intros (Hr & ys & ms & ds & hs & mis & ss & fs & z & -> & Hy & Ly & Hm & Lm & Hd & Ld & Hh & Lh & Hmi & Lmi & Hs & Ls & Hf & Hrd & Hz).
    replace (ys +++ "-" +++ ms +++ "-" +++ ds +++ "T" +++ hs +++ ":" +++ mis +++ ":" +++ ss +++ fs +++ z)
      with ((ys +++ "-" +++ ms +++ "-" +++ ds +++ "T" +++ hs +++ ":" +++ mis +++ ":" +++ ss +++ fs) +++ z)
      by (sapp; reflexivity).
    apply parse_timestamp_of_base; [exact Hz|].
    apply time_parse_complete; try assumption. now apply frac_readable_spec.
Qed.

Lemma time_text_v_text ck lf s t : time_text_v ck lf s t -> time_text s t.
Proof.
  intros (ys & ms & ds & hs & mis & ss & fs & z & H & H1 & H2 & H3 & H4 & H5 & H6 & H7 & H8 & H9 & H10 & H11 & H12 & H13 & _ & H14).
  exists ys, ms, ds, hs, mis, ss, fs, z. repeat (split; [assumption|]). assumption.
Qed.

(** ** printing *)
Lemma digit_char_val n : 0 <= n < 10 -> Z.of_nat (nat_of_ascii (digit_char n)) = 48 + n.
Proof.
  intro H. unfold digit_char. rewrite nat_ascii_embedding by lia. lia.
Qed.

Lemma nat_text_digits f : forall n, 0 <= n -> n < 10 ^ Z.of_nat f -> (1 <= f)%nat -> digits (nat_text f n) n.
Proof.
  induction f as [|f IH]; intros n Hn Hb Hf; [lia|].
  cbn [nat_text]. destruct (n <? 10) eqn:E.
  - constructor; [lia|]. apply digit_char_val. lia.
  - enough (digits (nat_text f (n / 10) +++ digit_str (n mod 10)) (10 * (n / 10) + n mod 10)) as X
      by (rewrite <- (Z.div_mod n 10) in X by lia; exact X).
    pose proof (Z.mod_pos_bound n 10 ltac:(lia)).
    apply dg_snoc; [|lia|apply digit_char_val; lia].
    replace (Z.of_nat (S f)) with (1 + Z.of_nat f) in Hb by lia.
    rewrite Z.pow_add_r in Hb by lia. change (10 ^ 1) with 10 in Hb.
    apply IH.
    + apply Z.div_pos; lia.
    + apply Z.div_lt_upper_bound; lia.
    + destruct f; [|lia]. change (10 ^ Z.of_nat 0) with 1 in Hb. lia.
Qed.

Lemma nat_text_length f : forall n k, 10 ^ Z.of_nat k <= n < 10 ^ Z.of_nat (S k) -> (k < f)%nat ->
  String.length (nat_text f n) = S k.
Proof.
  induction f as [|f IH]; intros n k Hb Hf; [lia|].
  cbn [nat_text]. destruct (n <? 10) eqn:E.
  - destruct k as [|k]; [reflexivity|].
    assert (10 ^ 1 <= 10 ^ Z.of_nat (S k)) by (apply Z.pow_le_mono_r; lia).
    change (10 ^ 1) with 10 in *. lia.
  - rewrite append_length. simpl String.length. destruct k as [|k].
    + change (10 ^ Z.of_nat 1) with 10 in Hb. lia.
    + rewrite (IH (n / 10) k); [lia| |lia].
      assert (E1 : 10 ^ Z.of_nat (S k) = 10 * 10 ^ Z.of_nat k).
      { replace (Z.of_nat (S k)) with (1 + Z.of_nat k) by lia. now rewrite Z.pow_add_r by lia. }
      assert (E2 : 10 ^ Z.of_nat (S (S k)) = 10 * 10 ^ Z.of_nat (S k)).
      { replace (Z.of_nat (S (S k))) with (1 + Z.of_nat (S k)) by lia. now rewrite Z.pow_add_r by lia. }
      rewrite E2 in Hb. split.
      * apply Z.div_le_lower_bound; lia.
      * apply Z.div_lt_upper_bound; lia.
Qed.

Lemma log2_fuel n : 0 <= n -> n < 10 ^ Z.of_nat (S (Z.to_nat (Z.log2_up (n + 1)))).
Proof.
  intro H. assert (Hl : n + 1 <= 2 ^ Z.log2_up (n + 1)).
  { destruct (Z.eq_dec n 0) as [->|Hn]; [vm_compute; discriminate|]. apply Z.log2_up_spec. lia. }
  assert (0 <= Z.log2_up (n + 1)) by apply Z.log2_up_nonneg.
  replace (Z.of_nat (S (Z.to_nat (Z.log2_up (n + 1))))) with (1 + Z.log2_up (n + 1)) by lia.
  assert (2 ^ Z.log2_up (n + 1) <= 10 ^ Z.log2_up (n + 1)) by (apply Z.pow_le_mono_l; lia).
  rewrite Z.pow_add_r by lia. change (10 ^ 1) with 10. lia.
Qed.

Lemma fmt_d_digits n : 0 <= n -> digits (fmt_d n) n.
Proof.
  intro H. unfold fmt_d. replace (n <? 0) with false by lia.
  apply nat_text_digits; [exact H|now apply log2_fuel|lia].
Qed.

Lemma fmt_d_length n k : 10 ^ Z.of_nat k <= n < 10 ^ Z.of_nat (S k) -> String.length (fmt_d n) = S k.
Proof.
  intro H. assert (Hn : 0 < n) by (assert (0 < 10 ^ Z.of_nat k) by (apply Z.pow_pos_nonneg; lia); lia).
  unfold fmt_d. replace (n <? 0) with false by lia. apply nat_text_length; [exact H|].
  pose proof (log2_fuel n ltac:(lia)) as Hf.
  destruct (le_lt_dec (S (Z.to_nat (Z.log2_up (n + 1)))) k) as [Hle|]; [|assumption].
  exfalso. assert (10 ^ Z.of_nat (S (Z.to_nat (Z.log2_up (n + 1)))) <= 10 ^ Z.of_nat k)
    by (apply Z.pow_le_mono_r; lia). lia.
Qed.

Lemma zpad_digits k s n : digits s n -> digits (zpad k s) n.
Proof.
  intro H. apply digits_dv in H. destruct H as [Hne H]. apply digits_dv.
  induction k as [|k [IH1 IH2]]; simpl; [auto|]. split; [discriminate|].
  destruct k; simpl in *; exact IH2.
Qed.
Lemma zpad_length k s : String.length (zpad k s) = (k + String.length s)%nat.
Proof. induction k; simpl; congruence. Qed.

Lemma fmt_0d_spec w n : (1 <= w)%nat -> 0 <= n < 10 ^ Z.of_nat w ->
  digits (fmt_0d w n) n /\ String.length (fmt_0d w n) = w.
Proof.
  intros Hw [H0 Hn]. unfold fmt_0d. split.
  - apply zpad_digits. now apply fmt_d_digits.
  - rewrite zpad_length.
    assert (Hl : (String.length (fmt_d n) <= w)%nat).
    { destruct (Z.eq_dec n 0) as [->|Hnz].
      - change (String.length (fmt_d 0)) with 1%nat. exact Hw.
      - pose proof (fmt_d_digits n H0) as Hd. apply digits_bound in Hd.
        assert (Hk : exists k, 10 ^ Z.of_nat k <= n < 10 ^ Z.of_nat (S k)).
        { clear -Hn Hnz H0. assert (Hn' : 0 < n) by lia. clear Hnz H0. revert Hn.
          induction w as [|w IH]; intro Hn.
          - change (10 ^ Z.of_nat 0) with 1 in Hn. lia.
          - destruct (Z_lt_le_dec n (10 ^ Z.of_nat w)); [auto|]. now exists w. }
        destruct Hk as [k Hk]. rewrite (fmt_d_length n k Hk).
        destruct (le_lt_dec w k) as [Hle|]; [|lia].
        assert (10 ^ Z.of_nat w <= 10 ^ Z.of_nat k) by (apply Z.pow_le_mono_r; lia). lia. }
    lia.
Qed.

(** Text form, in specification terms, of a UTC time in years 1000-9999. *)
Definition truncate_ms (t : timestamp) : timestamp :=
  mkTime (t_year t) (t_month t) (t_day t) (t_hour t) (t_min t) (t_sec t)
         (t_nsec t / 1000000 * 1000000) (t_off t).

Lemma days_from_civil_pos y m d : 1000 <= y -> 1 <= m <= 12 -> 1 <= d -> 0 < days_from_civil y m d.
Proof.
  intros Hy Hm Hd. unfold days_from_civil.
  assert (0 <= days_before_month m y).
  { unfold days_before_month.
    assert (E : m = 1 \/ m = 2 \/ m = 3 \/ m = 4 \/ m = 5 \/ m = 6 \/ m = 7 \/ m = 8 \/ m = 9 \/ m = 10 \/ m = 11 \/ m = 12) by lia.
    repeat destruct E as [->|E]; try subst m; simpl; destruct (is_leap y); simpl; lia. }
  pose proof (Z.div_mod (y - 1) 4 ltac:(lia)). pose proof (Z.mod_pos_bound (y - 1) 4 ltac:(lia)).
  pose proof (Z.div_mod (y - 1) 100 ltac:(lia)). pose proof (Z.mod_pos_bound (y - 1) 100 ltac:(lia)).
  pose proof (Z.div_mod (y - 1) 400 ltac:(lia)). pose proof (Z.mod_pos_bound (y - 1) 400 ltac:(lia)).
  lia.
Qed.

Lemma round_trip ck lf t : real_time t -> 1000 <= t_year t <= 9999 ->
  parse_timestamp ck lf (ts_string t) = Some (truncate_ms t)
  /\ ts_string (truncate_ms t) = ts_string t.
Proof.
  intros Hr Hy. pose proof Hr as Hr'.
  destruct Hr' as ((n & Hn & Hdn) & H1 & H2 & H3 & H4 & H5).
  pose proof (month_days_range _ _ _ Hn) as Hmr.
  assert (Hn31 : n <= 31).
  { apply days_in_spec in Hn; [|exact Hmr]. subst n. unfold days_in.
    destruct (t_month t =? 2); [destruct (is_leap _); lia|]. destruct (_ || _); lia. }
  assert (Hz : is_zero t = false).
  { unfold is_zero, instant_sec. pose proof (days_from_civil_pos (t_year t) (t_month t) (t_day t)). lia. }
  assert (Hns : 0 <= t_nsec t / 1000000 < 1000).
  { split; [apply Z.div_pos; lia|apply Z.div_lt_upper_bound; lia]. }
  assert (Hzt : is_zero (truncate_ms t) = false).
  { unfold is_zero, instant_sec, truncate_ms; cbn.
    pose proof (days_from_civil_pos (t_year t) (t_month t) (t_day t)). lia. }
  split.
  - unfold ts_string. rewrite Hz.
    pose proof (fmt_0d_spec 2 (t_month t) ltac:(lia) ltac:(change (10 ^ Z.of_nat 2) with 100; lia)) as [Dm Lm].
    pose proof (fmt_0d_spec 2 (t_day t) ltac:(lia) ltac:(change (10 ^ Z.of_nat 2) with 100; lia)) as [Dd Ld].
    pose proof (fmt_0d_spec 2 (t_hour t) ltac:(lia) ltac:(change (10 ^ Z.of_nat 2) with 100; lia)) as [Dh Lh].
    pose proof (fmt_0d_spec 2 (t_min t) ltac:(lia) ltac:(change (10 ^ Z.of_nat 2) with 100; lia)) as [Dmi Lmi].
    pose proof (fmt_0d_spec 2 (t_sec t) ltac:(lia) ltac:(change (10 ^ Z.of_nat 2) with 100; lia)) as [Ds Ls].
    pose proof (fmt_0d_spec 3 (t_nsec t / 1000000) ltac:(lia) ltac:(change (10 ^ Z.of_nat 3) with 1000; lia)) as [Dn Ln].
    replace (fmt_0d 2 (t_sec t) +++ "." +++ fmt_0d 3 (t_nsec t / 1000000) +++ "Z")
      with (fmt_0d 2 (t_sec t) +++ (String "." (fmt_0d 3 (t_nsec t / 1000000))) +++ "Z") by reflexivity.
    apply parse_timestamp_iff. unfold truncate_ms. split.
    { unfold real_time; cbn [t_year t_month t_day t_hour t_min t_sec t_nsec t_off].
      split; [now exists n|]. lia. }
    unfold time_text_v; cbn [t_year t_month t_day t_hour t_min t_sec t_nsec t_off].
    do 8 eexists. split; [reflexivity|].
    repeat match goal with |- _ /\ _ => split end; try eassumption.
    + apply fmt_d_digits. lia.
    + apply (fmt_d_length _ 3). change (10 ^ Z.of_nat 3) with 1000. change (10 ^ Z.of_nat 4) with 10000. lia.
    + now right.
    + replace (t_nsec t / 1000000 * 1000000) with (t_nsec t / 1000000 * 10 ^ (9 - Z.of_nat (String.length (fmt_0d 3 (t_nsec t / 1000000))))).
      * apply fr_short; [simpl; auto|exact Dn|lia].
      * rewrite Ln. reflexivity.
    + right. do 2 eexists. split; [reflexivity|]. split; [now left|]. right. lia.
    + left. reflexivity.
  - unfold ts_string. rewrite Hz, Hzt. unfold truncate_ms; cbn [t_year t_month t_day t_hour t_min t_sec t_nsec].
    rewrite Z.div_mul by lia. reflexivity.
Qed.


(** ** The spelling of UTC does not matter *)
Lemma suffix_tail b1 : forall b2 z1 z2, b1 +++ z1 = b2 +++ z2 ->
  (String.length z2 <= String.length z1)%nat -> exists c, z1 = c +++ z2 /\ b2 = b1 +++ c.
Proof.
  induction b1 as [|x b1 IH]; intros b2 z1 z2 H Hl.
  - simpl in H. exists b2. auto.
  - destruct b2 as [|y b2].
    + exfalso. simpl in H. apply (f_equal String.length) in H. simpl in H. rewrite append_length in H. lia.
    + simpl in H. injection H as <- H. destruct (IH _ _ _ H Hl) as (c & -> & ->). now exists c.
Qed.

Lemma utc_suffix_unique b1 z1 b2 z2 : utc_suffix z1 -> utc_suffix z2 -> b1 +++ z1 = b2 +++ z2 -> b1 = b2 /\ z1 = z2.
Proof.
  assert (K : forall a1 y1 a2 y2, utc_suffix y1 -> utc_suffix y2 -> (String.length y2 <= String.length y1)%nat ->
            a1 +++ y1 = a2 +++ y2 -> a1 = a2 /\ y1 = y2).
  { intros a1 y1 a2 y2 H1 H2 Hl H. destruct (suffix_tail _ _ _ _ H Hl) as (c & Hc & ->).
    assert (Hcs : c = EmptyString /\ y1 = y2).
    { unfold utc_suffix in H1, H2. simpl in H1, H2.
      repeat (destruct H1 as [<-|H1]; [|]); try contradiction;
        repeat (destruct H2 as [<-|H2]; [|]); try contradiction; simpl in Hl; try lia;
        repeat (destruct c as [|? c]; simpl in Hc; try discriminate; try (injection Hc; intros; subst); try discriminate);
        auto. }
    destruct Hcs as [-> ->]. now rewrite append_nil_r. }
  intros H1 H2 H. destruct (Nat.le_ge_cases (String.length z2) (String.length z1)) as [Hl|Hl].
  - eauto.
  - destruct (K _ _ _ _ H2 H1 Hl (eq_sym H)) as [-> ->]. auto.
Qed.

Lemma parse_suffix_irrelevant ck lf b z1 z2 : utc_suffix z1 -> utc_suffix z2 ->
  parse_timestamp ck lf (b +++ z1) = parse_timestamp ck lf (b +++ z2).
Proof.
  assert (K : forall y1 y2 t, utc_suffix y1 -> utc_suffix y2 ->
            parse_timestamp ck lf (b +++ y1) = Some t -> parse_timestamp ck lf (b +++ y2) = Some t).
  { intros y1 y2 t H1 H2 H. apply parse_timestamp_inv in H. destruct H as (b' & z & E & Hz & H).
    destruct (utc_suffix_unique _ _ _ _ H1 Hz E) as [-> _]. now apply parse_timestamp_of_base. }
  intros H1 H2. destruct (parse_timestamp ck lf (b +++ z1)) as [t|] eqn:E1.
  - symmetry. eauto.
  - destruct (parse_timestamp ck lf (b +++ z2)) as [t|] eqn:E2; [|reflexivity].
    apply (K z2 z1 t H2 H1) in E2. congruence.
Qed.
