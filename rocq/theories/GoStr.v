(** Byte strings as Go sees them, and the few functions of the Go packages
    [strings] and [unicode] that the modelled code calls.  These are models of the
    Go standard library (not of /repo); each says which function it stands for. *)
From Coq Require Export String Ascii List Arith ZArith NArith Lia Bool.
From Coq Require Import Permutation.
Export ListNotations.
Open Scope string_scope.
Open Scope list_scope.
Open Scope nat_scope.

Infix "=?s" := String.eqb (at level 70).
Infix "+++" := String.append (right associativity, at level 60).

(** Single bytes. *)
Definition ch_in (lo hi c : ascii) : bool :=
  (nat_of_ascii lo <=? nat_of_ascii c) && (nat_of_ascii c <=? nat_of_ascii hi).

Definition is_upper (c : ascii) : bool := ch_in "A" "Z" c.
Definition is_lower (c : ascii) : bool := ch_in "a" "z" c.
Definition is_digit (c : ascii) : bool := ch_in "0" "9" c.
Definition is_ascii7 (c : ascii) : bool := nat_of_ascii c <? 128.

Definition to_upper_ch (c : ascii) : ascii :=
  if is_lower c then ascii_of_nat (nat_of_ascii c - 32) else c.
Definition to_lower_ch (c : ascii) : ascii :=
  if is_upper c then ascii_of_nat (nat_of_ascii c + 32) else c.

(** "�" in UTF-8: what [strings.ToUpper]/[ToLower] put for an invalid byte. *)
Definition rune_error : string :=
  String (ascii_of_nat 239) (String (ascii_of_nat 191) (String (ascii_of_nat 189) EmptyString)).

(** [strings.ToUpper]/[strings.ToLower] of a string made of one byte [c]
    (a lone byte above 127 is invalid UTF-8 and is replaced by U+FFFD). *)
Definition upper1 (c : ascii) : string :=
  if is_ascii7 c then String (to_upper_ch c) EmptyString else rune_error.
Definition lower1 (c : ascii) : string :=
  if is_ascii7 c then String (to_lower_ch c) EmptyString else rune_error.

(** [strings.ToLower]/[ToUpper] on ASCII text.  Simplification: non-ASCII text is left alone. *)
Fixpoint to_lower (s : string) : string :=
  match s with EmptyString => EmptyString | String c r => String (to_lower_ch c) (to_lower r) end.
Fixpoint to_upper (s : string) : string :=
  match s with EmptyString => EmptyString | String c r => String (to_upper_ch c) (to_upper r) end.

(** [strings.HasPrefix(s, p)] *)
Fixpoint has_prefix (p s : string) : bool :=
  match p, s with
  | EmptyString, _ => true
  | String a p', String b s' => Ascii.eqb a b && has_prefix p' s'
  | _, _ => false
  end.

(** [s[n:]] and [s[:n]] *)
Fixpoint sdrop (n : nat) (s : string) : string :=
  match n, s with
  | O, _ => s
  | S n', String _ r => sdrop n' r
  | S _, EmptyString => EmptyString
  end.
Fixpoint stake (n : nat) (s : string) : string :=
  match n, s with
  | O, _ => EmptyString
  | S n', String c r => String c (stake n' r)
  | S _, EmptyString => EmptyString
  end.

(** [strings.HasSuffix(s, p)] *)
Definition has_suffix (p s : string) : bool :=
  (String.length p <=? String.length s) && (sdrop (String.length s - String.length p) s =?s p).

(** [strings.Index(s, sub)], [None] for -1 *)
Fixpoint index_of (sub s : string) : option nat :=
  if has_prefix sub s then Some 0
  else match s with
       | EmptyString => None
       | String _ r => option_map S (index_of sub r)
       end.
Definition contains (sub s : string) : bool :=
  match index_of sub s with Some _ => true | None => false end.

(** [strings.Index(s, c)] for one byte, with the two parts around it. *)
Fixpoint cut (c : ascii) (s : string) : option (string * string) :=
  match s with
  | EmptyString => None
  | String a r =>
      if Ascii.eqb a c then Some (EmptyString, r)
      else match cut c r with
           | Some (x, y) => Some (String a x, y)
           | None => None
           end
  end.

(** [strings.Split(s, sep)] for a one-byte separator. *)
Fixpoint split (c : ascii) (s : string) : list string :=
  match s with
  | EmptyString => [EmptyString]
  | String a r =>
      if Ascii.eqb a c then EmptyString :: split c r
      else match split c r with
           | x :: xs => String a x :: xs
           | [] => [String a EmptyString]
           end
  end.

(** [strings.Join(l, sep)] *)
Fixpoint join (sep : string) (l : list string) : string :=
  match l with
  | [] => EmptyString
  | [x] => x
  | x :: xs => x +++ sep +++ join sep xs
  end.

Fixpoint sforall (p : ascii -> bool) (s : string) : bool :=
  match s with EmptyString => true | String c r => p c && sforall p r end.

Fixpoint smem (c : ascii) (s : string) : bool :=
  match s with EmptyString => false | String a r => Ascii.eqb a c || smem c r end.

(** ASCII white space as in [unicode.IsSpace]; the non-ASCII white-space runes are not modelled. *)
Definition is_space (c : ascii) : bool :=
  let n := nat_of_ascii c in (n =? 32) || ((9 <=? n) && (n <=? 13)).
Fixpoint ltrim (s : string) : string :=
  match s with String c r => if is_space c then ltrim r else s | EmptyString => EmptyString end.
Fixpoint rtrim (s : string) : string :=
  match s with
  | EmptyString => EmptyString
  | String c r => match rtrim r with
                  | EmptyString => if is_space c then EmptyString else String c EmptyString
                  | r' => String c r'
                  end
  end.
(** [strings.TrimSpace] *)
Definition trim_space (s : string) : string := rtrim (ltrim s).

(** Association lists standing for Go maps. *)
Fixpoint assoc {A} (k : string) (l : list (string * A)) : option A :=
  match l with
  | [] => None
  | (k', v) :: r => if k =?s k' then Some v else assoc k r
  end.
(** [m[k] = v] *)
Fixpoint assoc_set {A} (k : string) (v : A) (l : list (string * A)) : list (string * A) :=
  match l with
  | [] => [(k, v)]
  | (k', v') :: r => if k =?s k' then (k, v) :: r else (k', v') :: assoc_set k v r
  end.
Definition keys {A} (l : list (string * A)) : list string := map fst l.

Fixpoint str_mem (s : string) (l : list string) : bool :=
  match l with [] => false | x :: r => (s =?s x) || str_mem s r end.

(* ------------------------------------------------------------------ *)
(** * Lemmas *)

Lemma seqb_eq a b : (a =?s b) = true <-> a = b.
Proof. apply String.eqb_eq. Qed.
Lemma seqb_neq a b : (a =?s b) = false <-> a <> b.
Proof. apply String.eqb_neq. Qed.
Lemma seqb_refl a : (a =?s a) = true.
Proof. apply String.eqb_refl. Qed.
Lemma seqb_sym a b : (a =?s b) = (b =?s a).
Proof. apply String.eqb_sym. Qed.
Lemma ceqb_eq a b : Ascii.eqb a b = true <-> a = b.
Proof. apply Ascii.eqb_eq. Qed.
Lemma ceqb_neq a b : Ascii.eqb a b = false <-> a <> b.
Proof. apply Ascii.eqb_neq. Qed.

Lemma str_mem_In s l : str_mem s l = true <-> In s l.
Proof.
  induction l as [|x r IH]; simpl; [split; [discriminate|tauto]|].
  rewrite orb_true_iff, IH, seqb_eq. split; intros [H|H]; auto.
Qed.
Lemma str_mem_nIn s l : str_mem s l = false <-> ~ In s l.
Proof.
  rewrite <- str_mem_In. destruct (str_mem s l); split; intro H; congruence.
Qed.

Lemma append_assoc (a b c : string) : (a +++ b) +++ c = a +++ (b +++ c).
Proof. induction a as [|x a IH]; simpl; [reflexivity|now rewrite IH]. Qed.
Lemma append_nil_r (a : string) : a +++ EmptyString = a.
Proof. induction a as [|x a IH]; simpl; [reflexivity|now rewrite IH]. Qed.
Lemma append_length (a b : string) : String.length (a +++ b) = String.length a + String.length b.
Proof. induction a as [|x a IH]; simpl; [reflexivity|now rewrite IH]. Qed.
Lemma append_inj_l (a b c : string) : a +++ b = a +++ c -> b = c.
Proof. induction a as [|x a IH]; simpl; intro H; [exact H|injection H as H; auto]. Qed.
Lemma append_inj_r (a b c : string) : b +++ a = c +++ a -> b = c.
Proof.
  revert c; induction b as [|x b IH]; intros c H.
  - destruct c as [|y c]; [reflexivity|].
    apply (f_equal String.length) in H. simpl in H. rewrite append_length in H. lia.
  - destruct c as [|y c].
    + apply (f_equal String.length) in H. simpl in H. rewrite append_length in H. lia.
    + simpl in H. injection H as Hx H. f_equal; auto.
Qed.
Lemma append_eq_nil (a b : string) : a +++ b = EmptyString -> a = EmptyString /\ b = EmptyString.
Proof. destruct a; simpl; [auto|discriminate]. Qed.

Lemma has_prefix_spec p s : has_prefix p s = true <-> exists r, s = p +++ r.
Proof.
  revert s; induction p as [|a p IH]; intros s; simpl.
  - split; [intros _; exists s; reflexivity|reflexivity].
  - destruct s as [|b s]; [split; [discriminate|intros [r Hr]; discriminate]|].
    rewrite andb_true_iff, ceqb_eq, IH. split.
    + intros [-> [r ->]]. now exists r.
    + intros [r Hr]. injection Hr as -> ->. split; [reflexivity|now exists r].
Qed.

Lemma sdrop_append p s : sdrop (String.length p) (p +++ s) = s.
Proof. induction p as [|a p IH]; simpl; [now destruct s|exact IH]. Qed.
Lemma stake_append p s : stake (String.length p) (p +++ s) = p.
Proof. induction p as [|a p IH]; simpl; [now destruct s|now rewrite IH]. Qed.
Lemma stake_sdrop n s : stake n s +++ sdrop n s = s.
Proof.
  revert s; induction n as [|n IH]; intros s; [now destruct s|].
  destruct s as [|c s]; simpl; [reflexivity|now rewrite IH].
Qed.
Lemma stake_length n s : n <= String.length s -> String.length (stake n s) = n.
Proof.
  revert s; induction n as [|n IH]; intros [|c s] H; simpl in *; try lia.
  rewrite IH; lia.
Qed.

Lemma has_suffix_spec p s : has_suffix p s = true <-> exists r, s = r +++ p.
Proof.
  unfold has_suffix. rewrite andb_true_iff, Nat.leb_le, seqb_eq. split.
  - intros [Hl He]. exists (stake (String.length s - String.length p) s).
    rewrite <- He at 2. symmetry. apply stake_sdrop.
  - intros [r ->]. rewrite append_length. split; [lia|].
    replace (String.length r + String.length p - String.length p) with (String.length r) by lia.
    apply sdrop_append.
Qed.

Lemma index_of_Some sub s n :
  index_of sub s = Some n ->
  exists a b, s = a +++ sub +++ b /\ String.length a = n.
Proof.
  revert n; induction s as [|c s IH]; intros n.
  - cbn [index_of]. destruct (has_prefix sub EmptyString) eqn:E; [|discriminate].
    intro H; injection H as <-. apply has_prefix_spec in E. destruct E as [r Hr].
    exists EmptyString, r. split; [exact Hr|reflexivity].
  - cbn [index_of]. destruct (has_prefix sub (String c s)) eqn:E.
    + intro H; injection H as <-. apply has_prefix_spec in E. destruct E as [r Hr].
      exists EmptyString, r. split; [exact Hr|reflexivity].
    + destruct (index_of sub s) as [k|] eqn:Ek; [|discriminate].
      intro H; injection H as <-. destruct (IH k eq_refl) as (a & b & -> & <-).
      exists (String c a), b. split; reflexivity.
Qed.

Lemma contains_spec sub s : contains sub s = true <-> exists a b, s = a +++ sub +++ b.
Proof.
  unfold contains. split.
  - destruct (index_of sub s) as [n|] eqn:E; [|discriminate].
    intros _. apply index_of_Some in E. destruct E as (a & b & H & _). now exists a, b.
  - intros (a & b & ->). induction a as [|c a IH]; simpl.
    + destruct (sub +++ b) as [|x r] eqn:E; cbn [index_of].
      * apply append_eq_nil in E. destruct E as [-> ->]. reflexivity.
      * assert (H : has_prefix sub (String x r) = true) by (apply has_prefix_spec; exists b; auto).
        rewrite H. reflexivity.
    + destruct (has_prefix sub (String c (a +++ sub +++ b))); [reflexivity|].
      destruct (index_of sub (a +++ sub +++ b)); [reflexivity|discriminate].
Qed.

Lemma cut_Some c s x y :
  cut c s = Some (x, y) <-> s = x +++ String c y /\ smem c x = false.
Proof.
  revert x y; induction s as [|a s IH]; intros x y; simpl.
  - split; [discriminate|]. intros [H _]. destruct x; discriminate.
  - destruct (Ascii.eqb a c) eqn:E.
    + apply ceqb_eq in E. subst a. split.
      * intro H; injection H as <- <-. split; reflexivity.
      * intros [H Hm]. destruct x as [|b x]; simpl in *.
        -- injection H as <-. reflexivity.
        -- injection H as <- _. rewrite Ascii.eqb_refl in Hm. discriminate.
    + destruct (cut c s) as [[p q]|] eqn:Ec.
      * split.
        -- intro H; injection H as <- <-. destruct (proj1 (IH p q) eq_refl) as [-> Hm].
           split; [reflexivity|]. simpl. now rewrite E.
        -- intros [H Hm]. destruct x as [|b x]; simpl in *.
           ++ injection H as <- _. rewrite Ascii.eqb_refl in E. discriminate.
           ++ injection H as <- H. apply orb_false_iff in Hm. destruct Hm as [_ Hm].
              assert (Hs : Some (p, q) = Some (x, y)) by (apply IH; auto).
              injection Hs as -> ->. reflexivity.
      * split; [discriminate|]. intros [H Hm]. destruct x as [|b x]; simpl in *.
        -- injection H as <- _. rewrite Ascii.eqb_refl in E. discriminate.
        -- injection H as <- H. apply orb_false_iff in Hm. destruct Hm as [_ Hm].
           assert (Hs : @None (string*string) = Some (x, y)) by (apply IH; auto). discriminate.
Qed.
Lemma cut_None c s : cut c s = None <-> smem c s = false.
Proof.
  induction s as [|a s IH]; simpl; [tauto|].
  destruct (Ascii.eqb a c); simpl; [split; discriminate|].
  destruct (cut c s) as [[p q]|]; [|tauto].
  split; [discriminate|]. intro H. apply IH in H. discriminate.
Qed.

Lemma split_nonempty c s : split c s <> [].
Proof.
  destruct s as [|a s]; simpl; [discriminate|].
  destruct (Ascii.eqb a c); [discriminate|]. destruct (split c s); discriminate.
Qed.

(** [strings.Join(strings.Split(s, sep), sep) == s] *)
Lemma join_split c s : join (String c EmptyString) (split c s) = s.
Proof.
  induction s as [|a s IH]; simpl; [reflexivity|].
  destruct (Ascii.eqb a c) eqn:E.
  - apply ceqb_eq in E. subst a. cbn [join].
    destruct (split c s) as [|x xs] eqn:Es; [now apply split_nonempty in Es|].
    rewrite IH. reflexivity.
  - destruct (split c s) as [|x xs] eqn:Es; [now apply split_nonempty in Es|].
    destruct xs as [|y ys]; cbn [join] in *; rewrite <- IH; reflexivity.
Qed.

(** [strings.Split(strings.Join(l, sep), sep) == l] when no element contains the separator. *)
Lemma split_noc c s : smem c s = false -> split c s = [s].
Proof.
  induction s as [|a s IH]; simpl; [reflexivity|].
  intro H. apply orb_false_iff in H. destruct H as [-> H]. now rewrite (IH H).
Qed.
Lemma split_app c a b :
  smem c a = false -> split c (a +++ String c b) = a :: split c b.
Proof.
  induction a as [|x a IH]; simpl.
  - intros _. now rewrite Ascii.eqb_refl.
  - intro H. apply orb_false_iff in H. destruct H as [-> H]. now rewrite (IH H).
Qed.
Lemma split_join c l :
  l <> [] -> (forall x, In x l -> smem c x = false) ->
  split c (join (String c EmptyString) l) = l.
Proof.
  induction l as [|x l IH]; intros Hn Hf; [congruence|].
  destruct l as [|y l].
  - simpl. apply split_noc. apply Hf. now left.
  - change (join (String c EmptyString) (x :: y :: l))
      with (x +++ String c EmptyString +++ join (String c EmptyString) (y :: l)).
    change (String c EmptyString +++ join (String c EmptyString) (y :: l))
      with (String c (join (String c EmptyString) (y :: l))).
    rewrite split_app by (apply Hf; now left).
    f_equal. apply IH; [discriminate|]. intros z Hz. apply Hf. now right.
Qed.

Lemma smem_app c a b : smem c (a +++ b) = smem c a || smem c b.
Proof. induction a as [|x a IH]; simpl; [reflexivity|]. now rewrite IH, orb_assoc. Qed.
Lemma split_no_sep c s x : In x (split c s) -> smem c x = false.
Proof.
  revert x; induction s as [|a s IH]; intros x; simpl.
  - intros [<-|[]]; reflexivity.
  - destruct (Ascii.eqb a c) eqn:E.
    + intros [<-|H]; [reflexivity|auto].
    + destruct (split c s) as [|y ys] eqn:Es; [now apply split_nonempty in Es|].
      intros [<-|H]; simpl; [rewrite E; apply IH; now left|apply IH; now right].
Qed.

(** Association lists. *)
Lemma assoc_In {A} k (v : A) l : assoc k l = Some v -> In (k, v) l.
Proof.
  induction l as [|[k' v'] r IH]; simpl; [discriminate|].
  destruct (k =?s k') eqn:E; [|intro H; right; auto].
  intro H; injection H as <-. apply seqb_eq in E. subst. now left.
Qed.
Lemma assoc_None {A} k (l : list (string * A)) : assoc k l = None <-> ~ In k (keys l).
Proof.
  induction l as [|[k' v'] r IH]; simpl; [tauto|].
  destruct (k =?s k') eqn:E.
  - apply seqb_eq in E. subst. split; [discriminate|]. intro H. exfalso. apply H. now left.
  - apply seqb_neq in E. rewrite IH. split; intros H; [intros [H'|H']; congruence|tauto].
Qed.
Lemma assoc_NoDup {A} k (v : A) l : NoDup (keys l) -> In (k, v) l -> assoc k l = Some v.
Proof.
  induction l as [|[k' v'] r IH]; simpl; [tauto|].
  intros Hn [H|H].
  - injection H as -> ->. now rewrite seqb_refl.
  - inversion Hn as [|x y Hx Hn']; subst. destruct (k =?s k') eqn:E.
    + apply seqb_eq in E. subst. exfalso. apply Hx.
      change k' with (fst (k', v)). now apply in_map.
    + auto.
Qed.
Lemma assoc_perm {A} k (l l' : list (string * A)) :
  NoDup (keys l) -> Permutation l l' -> assoc k l = assoc k l'.
Proof.
  intros Hn Hp. assert (Hn' : NoDup (keys l')).
  { eapply Permutation_NoDup; [apply Permutation_map; exact Hp|exact Hn]. }
  destruct (assoc k l) as [v|] eqn:E.
  - symmetry. apply assoc_NoDup; [exact Hn'|]. eapply Permutation_in; [exact Hp|]. now apply assoc_In.
  - symmetry. apply assoc_None. apply assoc_None in E. intro H. apply E.
    eapply Permutation_in; [apply Permutation_sym; apply Permutation_map; exact Hp|exact H].
Qed.
Lemma assoc_set_same {A} k (v : A) l : assoc k (assoc_set k v l) = Some v.
Proof.
  induction l as [|[k' v'] r IH]; simpl; [now rewrite seqb_refl|].
  destruct (k =?s k') eqn:E; simpl; [now rewrite seqb_refl|now rewrite E].
Qed.
Lemma assoc_set_other {A} k k2 (v : A) l : k2 <> k -> assoc k2 (assoc_set k v l) = assoc k2 l.
Proof.
  intro Hk. induction l as [|[k' v'] r IH]; simpl.
  - apply seqb_neq in Hk. now rewrite Hk.
  - destruct (k =?s k') eqn:E; simpl.
    + apply seqb_eq in E. subst k'. apply seqb_neq in Hk. now rewrite Hk.
    + now rewrite IH.
Qed.
Lemma assoc_app {A} k (l1 l2 : list (string * A)) :
  assoc k (l1 ++ l2) = match assoc k l1 with Some v => Some v | None => assoc k l2 end.
Proof.
  induction l1 as [|[k' v'] r IH]; simpl; [reflexivity|].
  destruct (k =?s k'); [reflexivity|exact IH].
Qed.
Lemma assoc_set_keys {A} k (v : A) l x : In x (keys (assoc_set k v l)) <-> x = k \/ In x (keys l).
Proof.
  induction l as [|[k' v'] r IH]; simpl; [intuition|].
  destruct (k =?s k') eqn:E; simpl.
  - apply seqb_eq in E. subst. intuition.
  - rewrite IH. intuition.
Qed.
Lemma assoc_set_NoDup {A} k (v : A) l : NoDup (keys l) -> NoDup (keys (assoc_set k v l)).
Proof.
  induction l as [|[k' v'] r IH]; simpl; intro H.
  - constructor; [tauto|constructor].
  - inversion H as [|x y Hx Hn]; subst. destruct (k =?s k') eqn:E; simpl.
    + apply seqb_eq in E. subst. constructor; assumption.
    + constructor; [|auto]. intro Hin. apply assoc_set_keys in Hin. destruct Hin as [->|Hin]; [|auto].
      rewrite seqb_refl in E. discriminate.
Qed.

(** Trimming. *)
Lemma ltrim_not_space c s : is_space c = false -> ltrim (String c s) = String c s.
Proof. simpl. now intros ->. Qed.

(** Normalise concatenations: right-nested, literals unfolded. *)
Ltac sapp := repeat first [rewrite append_assoc | progress (cbn [String.append])].
