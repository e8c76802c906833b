From Verif Require Import GoStr Outcome Schema Misc SpecMisc SpecPV PVFacts Generator HttpTrace Java Golang SpecGen.

(** ** The writer *)
Lemma step_keeps c g p s : g_fs g p = Some s -> g_fs (gstep false c g) p = Some s.
Proof.
  intros H. assert (W : forall q t i, g_fs (write_file false q t i g) p = Some s).
  { intros q t i. unfold write_file. simpl. destruct (io_stat i); [exact H|]. simpl.
    destruct (g_fs g q) eqn:Q; [exact H|]. destruct (io_open i); simpl; [|exact H].
    unfold set_file. destruct (p =?s q) eqn:E; [|exact H]. apply seqb_eq in E. congruence. }
  destruct c; simpl.
  - unfold begin_. destruct (g_err g); exact H.
  - unfold emit. destruct (g_err g); [exact H|]. destruct (g_text g); exact H.
  - unfold emit_template, emit. destruct (g_err g); [exact H|]. destruct r; [|exact H]. destruct (g_text g); exact H.
  - unfold ensure_dir. destruct (g_err g); exact H.
  - apply W.
  - unfold write_guarded. destruct (g_err g); [exact H|apply W].
  - unfold write_guarded. destruct (g_err g); [exact H|apply W].
Qed.
Lemma run_keeps cs : forall g p s, g_fs g p = Some s -> g_fs (grun false cs g) p = Some s.
Proof.
  induction cs as [|c cs IH]; intros g p s H; [exact H|]. simpl. apply IH. apply step_keeps. exact H.
Qed.
Lemma step_stops force c g : g_err g = true -> (forall p t i, c <> GWrite p t i) -> gstep force c g = g.
Proof.
  intros H Hc. destruct c; simpl; unfold begin_, emit, emit_template, ensure_dir, write_guarded; try (rewrite H; reflexivity).
  exfalso. eapply Hc. reflexivity.
Qed.
Lemma run_stops force cs : forall g, g_err g = true -> (forall p t i, ~ In (GWrite p t i) cs) -> grun force cs g = g.
Proof.
  induction cs as [|c cs IH]; intros g H Hc; [reflexivity|]. simpl.
  rewrite (step_stops force c g H); [apply IH; [exact H|]|].
  - intros p t i Hi. exact (Hc p t i (or_intror Hi)).
  - intros p t i ->. exact (Hc p t i (or_introl eq_refl)).
Qed.
(** only the paths written to change *)
Definition writes_to (c : gcall) (p : string) : Prop :=
  match c with GWrite q _ _ | GWriteGuarded q _ _ | GFlush q _ _ => q = p | _ => False end.
Lemma step_frame force c g p : ~ writes_to c p -> g_fs (gstep force c g) p = g_fs g p.
Proof.
  intros H. assert (W : forall q t i, q <> p -> g_fs (write_file force q t i g) p = g_fs g p).
  { intros q t i N. unfold write_file. destruct (_ && _)%bool; [reflexivity|]. destruct (io_open i); [|reflexivity]. simpl.
    unfold set_file. destruct (p =?s q) eqn:E; [|reflexivity]. apply seqb_eq in E. congruence. }
  destruct c; simpl in *; unfold begin_, emit, emit_template, ensure_dir, write_guarded, emit;
    repeat (match goal with |- context[if ?b then _ else _] => destruct b | |- context[match ?o with _ => _ end] => destruct o end); auto.
Qed.
Lemma run_frame force cs p : forall g, (forall c, In c cs -> ~ writes_to c p) -> g_fs (grun force cs g) p = g_fs g p.
Proof.
  induction cs as [|c cs IH]; intros g H; [reflexivity|]. simpl. rewrite IH; [|intros x Hx; apply H; right; exact Hx].
  apply step_frame. apply H. left. reflexivity.
Qed.
Lemma stake_all n s : String.length s <= n -> stake n s = s.
Proof. revert n. induction s as [|c s IH]; intros [|n] H; simpl in *; try reflexivity; try lia. f_equal. apply IH. lia. Qed.
Lemma write_content force path content i g : g_err g = false -> io_stat i = false -> io_open i = true ->
  String.length content <= io_room i -> (force = true \/ g_fs g path = None) ->
  let g' := write_guarded force path content i g in g_err g' = false /\ g_fs g' path = Some content.
Proof.
  intros He Hs Ho Hr Hf. unfold write_guarded, write_file. rewrite He, Hs, Ho. cbv zeta.
  replace (negb force && _)%bool with false.
  - replace (io_room i <? String.length content) with false by (symmetry; apply Nat.ltb_ge; exact Hr).
    simpl. split; [reflexivity|]. unfold set_file. rewrite seqb_refl, stake_all by exact Hr. reflexivity.
  - destruct Hf as [-> | ->]; [reflexivity|]. destruct force; reflexivity.
Qed.
(** the text between Begin and End *)
Lemma emit_text ss : forall g t, g_err g = false -> g_text g = Some t ->
  grun true (map GEmit ss) g = mkGen false (Some (t +++ String.concat "" ss)) (g_fs g).
Proof.
  induction ss as [|s ss IH]; intros g t He Ht.
  - simpl. rewrite append_nil_r. destruct g; simpl in *. congruence.
  - cbn [map]. unfold grun. cbn [fold_left gstep]. fold (grun true (map GEmit ss) (emit s g)).
    unfold emit. rewrite He, Ht. rewrite (IH _ (t +++ s)) by reflexivity. simpl.
    f_equal. f_equal. rewrite append_assoc. f_equal. destruct ss; simpl; [rewrite append_nil_r|]; reflexivity.
Qed.
Lemma begin_emit_end force ss g : g_err g = false ->
  end_ (grun force (GBegin :: map GEmit ss) g) = String.concat "" ss.
Proof.
  intros He. assert (F : forall g, grun force (map GEmit ss) g = grun true (map GEmit ss) g).
  { clear. induction ss as [|s ss IH]; intros g; [reflexivity|]. simpl. unfold grun in *. simpl. apply IH. }
  unfold grun at 1. cbn [fold_left gstep]. fold (grun force (map GEmit ss) (begin_ g)). rewrite F.
  unfold begin_. rewrite He. rewrite (emit_text ss _ "") by reflexivity. reflexivity.
Qed.

(** ** Traces *)

Lemma has_suffix_snoc_eq a : has_suffix "=" a = true <-> exists b, a = b +++ "=".
Proof. split.
  - intros H. apply has_suffix_spec in H. exact H.
  - intros H. apply has_suffix_spec. exact H.
Qed.
Lemma filter_without {A} (P : A -> Prop) f (l : list A) : (forall x, In x l -> (f x = false <-> P x)) -> without P l (filter f l).
Proof.
  induction l as [|x l IH]; intros H; simpl; [constructor|].
  assert (Hx := H x (or_introl eq_refl)). assert (IH' := IH (fun y Hy => H y (or_intror Hy))).
  destruct (f x) eqn:E.
  - apply wo_keep; [|exact IH']. intros N. apply Hx in N. discriminate.
  - apply wo_drop; [|exact IH']. apply Hx. reflexivity.
Qed.
Lemma without_unique {A} (P : A -> Prop) l l1 : without P l l1 -> forall l2, without P l l2 -> l1 = l2.
Proof.
  induction 1; intros l2 W; inversion W; subst; try contradiction; f_equal; auto.
Qed.
Lemma without_ext {A} (P Q : A -> Prop) l l' : (forall x, In x l -> (P x <-> Q x)) -> without P l l' -> without Q l l'.
Proof.
  intros E W. induction W as [|x l l' Px W IH|x l l' Px W IH]; [constructor| |].
  - apply wo_drop; [apply E; [left; reflexivity|exact Px]|apply IH; intros; apply E; right; assumption].
  - apply wo_keep; [intros N; apply Px, E; [left; reflexivity|exact N]|apply IH; intros; apply E; right; assumption].
Qed.
Lemma without_incl {A} (P : A -> Prop) l l' : without P l l' -> incl l' l.
Proof. induction 1; intros y Hy; simpl in *; [exact Hy|right; auto|destruct Hy; [left; assumption|right; auto]]. Qed.
Lemma strip_target uri p l : target uri p l ->
  exists l', without (fun x => exists b, x = b +++ "=") l l' /\ target (strip_missing uri) p l'.
Proof.
  intros [q H|q i r Hq Hr].
  - exists []. split; [constructor|]. unfold strip_missing. apply no_char_smem in H.
    destruct (cut_None "?" q) as [_ C]. rewrite (C H). constructor. apply no_char_smem. exact H.
  - unfold strip_missing. replace (cut "?" _) with (Some (q, join "&" (i :: r))).
    2:{ symmetry. apply cut_Some. split; [reflexivity|apply no_char_smem; exact Hq]. }
    rewrite (split_join "&" (i :: r)); [|discriminate|intros x Hx; apply no_char_smem; apply Hr; exact Hx].
    set (f := fun item => negb (has_suffix "=" item)).
    assert (W : without (fun x => exists b, x = b +++ "=") (i :: r) (filter f (i :: r))).
    { apply filter_without. intros x _. unfold f. rewrite <- has_suffix_snoc_eq. destruct (has_suffix "=" x); simpl; split; congruence. }
    exists (filter f (i :: r)). split; [exact W|].
    assert (I := without_incl _ _ _ W).
    destruct (filter f (i :: r)) as [|j t]; [constructor; exact Hq|].
    constructor; [exact Hq|]. intros x Hx. apply Hr, I, Hx.
Qed.
Lemma string_snoc v : v = "" \/ exists w c, v = w +++ String c "".
Proof.
  induction v as [|a v IH]; [left; reflexivity|right]. destruct IH as [->|(w & c & ->)].
  - exists "", a. reflexivity.
  - exists (String a w), c. reflexivity.
Qed.
Lemma app_snoc_inj a b c d : a +++ String c "" = b +++ String d "" -> a = b /\ c = d.
Proof.
  revert b. induction a as [|x a IH]; intros b E; destruct b as [|y b]; simpl in E.
  - injection E as ->. split; reflexivity.
  - injection E as _ E. destruct b; discriminate.
  - injection E as _ E. destruct a; discriminate.
  - injection E as -> E. apply IH in E. destruct E as [-> ->]. split; reflexivity.
Qed.
Lemma value_empty k v : (exists b, k +++ "=" +++ v = b +++ "=") <-> v = "" \/ exists w, v = w +++ "=".
Proof.
  split.
  - intros (b & E). destruct (string_snoc v) as [->|(w & c & ->)]; [left; reflexivity|right].
    exists w. assert (E' : (k +++ "=" +++ w) +++ String c "" = b +++ "=") by (rewrite !append_assoc; exact E).
    apply app_snoc_inj in E'. destruct E' as [_ ->]. reflexivity.
  - intros [-> | (w & ->)]; [exists k; reflexivity|]. exists (k +++ "=" +++ w). rewrite !append_assoc. reflexivity.
Qed.
Lemma strip_exact uri p l : target uri p l ->
  (forall x, In x l -> exists v, has_value x v /\ ~ (exists w, v = w +++ "=")) ->
  exists l', without (fun x => has_value x "") l l' /\ target (strip_missing uri) p l'.
Proof.
  intros T H. destruct (strip_target uri p l T) as (l' & W & T'). exists l'. split; [|exact T'].
  apply (without_ext (fun x => exists b, x = b +++ "=")); [|exact W].
  intros x Hx. destruct (H x Hx) as (v & (k & Hk & ->) & Hv). split.
  - intros B. apply value_empty in B. destruct B as [-> | B]; [|contradiction]. exists k. split; [exact Hk|reflexivity].
  - intros (k' & _ & ->). exists k'. reflexivity.
Qed.

(** ** Java imports and packages *)
Lemma add_import_In l r x : In x (add_import l r) <-> In x l \/ x = r.
Proof.
  unfold add_import. destruct (str_mem r l) eqn:E.
  - apply str_mem_In in E. split; [tauto|]. intros [H| ->]; assumption.
  - rewrite in_app_iff. simpl. intuition congruence.
Qed.
Lemma add_import_NoDup l r : NoDup l -> NoDup (add_import l r).
Proof.
  intros H. unfold add_import. destruct (str_mem r l) eqn:E; [exact H|].
  apply NoDup_rev in H. rewrite <- (rev_involutive (l ++ [r])). apply NoDup_rev. rewrite rev_app_distr. simpl.
  constructor; [|exact H]. rewrite <- in_rev. intros N. apply str_mem_In in N. congruence.
Qed.
Lemma add_imports_In rs : forall l x, In x (fold_left add_import rs l) <-> In x l \/ In x rs.
Proof.
  induction rs as [|r rs IH]; intros l x; simpl; [tauto|]. rewrite IH, add_import_In. intuition congruence.
Qed.
Lemma add_imports_NoDup rs : forall l, NoDup l -> NoDup (fold_left add_import rs l).
Proof. induction rs as [|r rs IH]; intros l H; simpl; [exact H|]. apply IH. apply add_import_NoDup. exact H. Qed.
Lemma insert_In s l x : In x (insert_str s l) <-> x = s \/ In x l.
Proof.
  induction l as [|a l IH]; simpl; [intuition congruence|]. destruct (s <=? a)%string; simpl; [intuition congruence|].
  rewrite IH. tauto.
Qed.
Lemma insert_ascending s l : ascending l -> ~ In s l -> ascending (insert_str s l).
Proof.
  intros H. induction H as [|a|a b l L H IH]; intros N; simpl.
  - constructor.
  - unfold String.leb. destruct (s ?= a)%string eqn:E.
    + apply String.compare_eq_iff in E. subst. elim N. left. reflexivity.
    + apply asc_cons; [exact E|constructor].
    + apply asc_cons; [|constructor]. rewrite String.compare_antisym, E. reflexivity.
  - assert (IH' : ascending (insert_str s (b :: l))) by (apply IH; intros X; apply N; right; exact X).
    unfold String.leb. destruct (s ?= a)%string eqn:E.
    + apply String.compare_eq_iff in E. subst. elim N. left. reflexivity.
    + apply asc_cons; [exact E|]. apply asc_cons; assumption.
    + simpl in IH'. destruct (s <=? b)%string eqn:Q.
      * unfold String.leb in Q. rewrite Q. apply asc_cons; [|exact IH']. rewrite String.compare_antisym, E. reflexivity.
      * unfold String.leb in Q. rewrite Q. apply asc_cons; [exact L|exact IH'].
Qed.
Lemma sort_In l x : In x (sort_strings l) <-> In x l.
Proof. induction l as [|a l IH]; simpl; [tauto|]. rewrite insert_In, IH. intuition congruence. Qed.
Lemma sort_ascending l : NoDup l -> ascending (sort_strings l).
Proof.
  induction 1 as [|a l N H IH]; simpl; [constructor|]. apply insert_ascending; [exact IH|]. rewrite sort_In. exact N.
Qed.
Lemma compare_refl s : (s ?= s)%string = Eq.
Proof. assert (H := String.compare_antisym s s). destruct (s ?= s)%string; [reflexivity|discriminate|discriminate]. Qed.
Lemma compare_trans : forall a b c, (a ?= b)%string = Lt -> (b ?= c)%string = Lt -> (a ?= c)%string = Lt.
Proof.
  induction a as [|x a IH]; intros [|y b] [|z c]; simpl; intros H1 H2; try discriminate; try reflexivity.
  destruct (Ascii.compare x y) eqn:E1; [|clear H1|discriminate].
  - apply Ascii.compare_eq_iff in E1. subst. destruct (Ascii.compare y z); [|reflexivity|discriminate].
    eapply IH; eassumption.
  - destruct (Ascii.compare y z) eqn:E2; [|clear H2|discriminate].
    + apply Ascii.compare_eq_iff in E2. subst. rewrite E1. reflexivity.
    + unfold Ascii.compare in *. rewrite N.compare_lt_iff in E1, E2.
      assert (E : (N_of_ascii x ?= N_of_ascii z)%N = Lt) by (apply N.compare_lt_iff; eapply N.lt_trans; eassumption).
      rewrite E. reflexivity.
Qed.
Lemma ascending_head l : ascending l -> forall a r, l = a :: r -> forall x, In x r -> (a ?= x)%string = Lt.
Proof.
  induction 1 as [|s|s t l L H IH]; intros a r E x Hx; try discriminate.
  - injection E as <- <-. destruct Hx.
  - injection E as <- <-. destruct Hx as [<- | Hx]; [exact L|]. eapply compare_trans; [exact L|]. eapply IH; [reflexivity|exact Hx].
Qed.
Lemma ascending_NoDup l : ascending l -> NoDup l.
Proof.
  induction 1 as [|s|s t l L H IH]; [constructor|repeat constructor; auto|]. constructor; [|exact IH].
  intros N. assert (C := ascending_head _ (asc_cons _ _ _ L H) _ _ eq_refl _ N).
  assert (C' : (s ?= s)%string = Eq) by apply compare_refl. congruence.
Qed.
(** the ascending list of a set of names is determined *)
Lemma ascending_unique l : ascending l -> forall l', ascending l' -> (forall x, In x l <-> In x l') -> l = l'.
Proof.
  induction l as [|a l IH]; intros H l' H' E.
  - destruct l' as [|b l']; [reflexivity|]. exfalso. apply (proj2 (E b)). left. reflexivity.
  - destruct l' as [|b l']; [exfalso; apply (proj1 (E a)); left; reflexivity|].
    assert (Ha := ascending_head _ H _ _ eq_refl). assert (Hb := ascending_head _ H' _ _ eq_refl).
    assert (L : forall x y, (x ?= y)%string = Lt -> (y ?= x)%string = Lt -> False).
    { intros x y A B. assert (C := compare_trans _ _ _ A B). assert (C' : (x ?= x)%string = Eq) by apply compare_refl. congruence. }
    assert (I : forall x, (x ?= x)%string = Lt -> False).
    { intros x A. exact (L x x A A). }
    assert (ab : a = b).
    { destruct (proj1 (E a) (or_introl eq_refl)) as [->|Xa]; [reflexivity|].
      destruct (proj2 (E b) (or_introl eq_refl)) as [->|Xb]; [reflexivity|].
      exfalso. exact (L _ _ (Ha _ Xb) (Hb _ Xa)). }
    subst b. f_equal. apply IH.
    + inversion H; [constructor|assumption].
    + inversion H'; [constructor|assumption].
    + intros x. split; intros X.
      * destruct (proj1 (E x) (or_intror X)) as [->|Y]; [|exact Y]. exfalso. exact (I _ (Ha _ X)).
      * destruct (proj2 (E x) (or_intror X)) as [->|Y]; [|exact Y]. exfalso. exact (I _ (Hb _ X)).
Qed.
Lemma pojos_lists rs : forall imports, NoDup imports -> forall k f, nth_error (pojos imports rs) k = Some f ->
  ascending f /\ forall x, In x f <-> In x imports \/ exists j r, j <= k /\ nth_error rs j = Some r /\ In x r.
Proof.
  induction rs as [|r rs IH]; intros imports N k f H; [destruct k; discriminate|].
  simpl in H. set (s := sort_strings (fold_left add_import r imports)) in *.
  assert (As : ascending s) by (apply sort_ascending, add_imports_NoDup, N).
  assert (Is : forall x, In x s <-> In x imports \/ In x r) by (intros x; unfold s; rewrite sort_In, add_imports_In; tauto).
  destruct k as [|k]; simpl in H.
  - injection H as <-. split; [exact As|]. intros x. rewrite Is. split.
    + intros [A|A]; [left; exact A|right]. exists 0, r. split; [lia|]. split; [reflexivity|exact A].
    + intros [A|(j & t & L & E & A)]; [left; exact A|right]. assert (j = 0) by lia. subst. injection E as ->. exact A.
  - destruct (IH s (ascending_NoDup _ As) k f H) as [A B]. split; [exact A|]. intros x. rewrite B, Is. split.
    + intros [[C|C]|(j & t & L & E & C)]; [left; exact C|right; exists 0, r|right; exists (S j), t].
      * split; [lia|]. split; [reflexivity|exact C].
      * split; [lia|]. split; [exact E|exact C].
    + intros [C|(j & t & L & E & C)]; [left; left; exact C|]. destruct j as [|j].
      * injection E as ->. left. right. exact C.
      * right. exists j, t. split; [lia|]. split; [exact E|exact C].
Qed.
Lemma pojos_length rs : forall imports, length (pojos imports rs) = length rs.
Proof. induction rs as [|r rs IH]; intros imports; simpl; [reflexivity|]. f_equal. apply IH. Qed.
Lemma reverse_strings_rev l : reverse_strings l = rev l.
Proof.
  unfold reverse_strings. assert (G : forall (l acc : list string), fold_left (fun filled v => v :: filled) l acc = rev l ++ acc).
  { clear l. induction l as [|a l IH]; intros acc; simpl; [reflexivity|]. rewrite IH, <- app_assoc. reflexivity. }
  rewrite G, app_nil_r. reflexivity.
Qed.
Lemma default_package_split d : split "." (default_package d) = rev (split "." d).
Proof.
  unfold default_package. rewrite reverse_strings_rev. apply split_join.
  - intros E. apply (split_nonempty "." d). rewrite <- (rev_involutive (split "." d)), E. reflexivity.
  - intros x Hx. apply in_rev in Hx. eapply split_no_sep. exact Hx.
Qed.
Lemma default_package_join l : l <> [] -> (forall x, In x l -> no_char "." x) -> default_package (join "." l) = join "." (rev l).
Proof.
  intros H N. unfold default_package. rewrite reverse_strings_rev, (split_join "." l); [reflexivity|exact H|].
  intros x Hx. apply no_char_smem, N, Hx.
Qed.
Lemma default_package_involutive d : default_package (default_package d) = d.
Proof.
  unfold default_package at 1. rewrite reverse_strings_rev, default_package_split, rev_involutive. apply join_split.
Qed.
Lemma package_path_join l : l <> [] -> (forall x, In x l -> no_char "." x) -> package_to_path (join "." l) = join "/" l.
Proof.
  intros H N. unfold package_to_path. rewrite (split_join "." l); [reflexivity|exact H|].
  intros x Hx. apply no_char_smem, N, Hx.
Qed.

(** ** Paths *)
Lemma split_app_gen c a : forall b, split c (a +++ String c b) = split c a ++ split c b.
Proof.
  induction a as [|x a IH]; intros b; simpl.
  - rewrite Ascii.eqb_refl. reflexivity.
  - destruct (Ascii.eqb x c); [rewrite IH; reflexivity|]. rewrite IH. destruct (split c a) eqn:E; [|reflexivity].
    exfalso. exact (split_nonempty _ _ E).
Qed.
Definition nonempty (s : string) : bool := negb (s =?s "").
Lemma clean_comps_app r l1 : forall l2 st, clean_comps r (l1 ++ l2) st = clean_comps r l2 (rev (clean_comps r l1 st)).
Proof.
  induction l1 as [|c l1 IH]; intros l2 st; simpl; [rewrite rev_involutive; reflexivity|].
  destruct ((c =?s "") || (c =?s "."))%bool; [apply IH|]. destruct (c =?s ".."); [|apply IH].
  destruct st as [|d s]; [destruct r; apply IH|]. destruct (d =?s ".."); apply IH.
Qed.
Lemma plain_step r c l st : plain_component c -> clean_comps r (c :: l) st = clean_comps r l (c :: st).
Proof.
  intros [[N [D _]] P]. simpl. destruct (c =?s "") eqn:E1; [apply seqb_eq in E1; congruence|].
  destruct (c =?s ".") eqn:E2; [apply seqb_eq in E2; congruence|].
  destruct (c =?s "..") eqn:E3; [apply seqb_eq in E3; congruence|]. reflexivity.
Qed.
Lemma clean_plain r l : forall st, (forall c, In c l -> c = "" \/ plain_component c) -> clean_comps r l st = rev st ++ filter nonempty l.
Proof.
  induction l as [|c l IH]; intros st H; [simpl; rewrite app_nil_r; reflexivity|].
  destruct (H c (or_introl eq_refl)) as [-> | P].
  - simpl. apply IH. intros x Hx. apply H. right. exact Hx.
  - rewrite (plain_step r c l st P), IH by (intros x Hx; apply H; right; exact Hx).
    assert (N : nonempty c = true).
    { unfold nonempty. destruct (c =?s "") eqn:E; [|reflexivity]. apply seqb_eq in E. destruct P as [[N _] _]. congruence. }
    simpl. rewrite N, <- app_assoc. reflexivity.
Qed.
(** what the stack of Clean looks like: [..] only at the front of a path that is not rooted *)
Inductive tidy (r : bool) : list string -> Prop :=
| td_nil : tidy r []
| td_plain c st : plain_component c -> tidy r st -> tidy r (c :: st)
| td_up st : r = false -> (forall c, In c st -> c = "..") -> tidy r (".." :: st).
Lemma tidy_up r st : tidy r st -> (forall c, In c st -> c = "..") -> r = false \/ st = [].
Proof. intros T H. destruct T as [|c st P T|st E U]; [right; reflexivity| |left; exact E].
  destruct P as [_ P]. elim P. apply H. left. reflexivity. Qed.
Lemma no_slash_dots : no_char "/" "..".
Proof. apply no_char_smem. reflexivity. Qed.
Lemma clean_tidy r l : forall st, (forall c, In c l -> no_char "/" c) -> tidy r st -> exists st', clean_comps r l st = rev st' /\ tidy r st'.
Proof.
  induction l as [|c l IH]; intros st H T; [exists st; split; [reflexivity|exact T]|].
  assert (H' : forall x, In x l -> no_char "/" x) by (intros x Hx; apply H; right; exact Hx). simpl.
  destruct (c =?s "") eqn:E1; [apply IH; assumption|]. destruct (c =?s ".") eqn:E2; [apply IH; assumption|]. simpl.
  destruct (c =?s "..") eqn:E3.
  - apply seqb_eq in E3. subst c. destruct T as [|d s P T|s R U].
    + destruct r; (apply IH; [exact H'|]); [constructor|]. apply td_up; [reflexivity|intros c []].
    + destruct (d =?s "..") eqn:E; [apply seqb_eq in E; destruct P; congruence|]. apply IH; assumption.
    + simpl. apply IH; [exact H'|]. apply td_up; [exact R|]. intros c [<-|Hc]; [reflexivity|apply U, Hc].
  - apply IH; [exact H'|]. apply td_plain; [|exact T].
    split; [split; [|split]|]; [intros ->; discriminate|intros ->; discriminate|apply H; left; reflexivity|intros ->; discriminate].
Qed.
Lemma tidy_fixed r st : tidy r st -> clean_comps r (rev st) [] = rev st.
Proof.
  induction 1 as [|c st P T IH|st R U].
  - reflexivity.
  - simpl. rewrite clean_comps_app, IH, rev_involutive. rewrite (plain_step r c [] st P). reflexivity.
  - subst r. assert (G : clean_comps false (rev st) [] = rev st).
    { induction st as [|c st IH]; [reflexivity|]. simpl. rewrite clean_comps_app, IH, rev_involutive by (intros x Hx; apply U; right; exact Hx).
      rewrite (U c (or_introl eq_refl)). simpl. destruct st as [|d st]; [reflexivity|].
      rewrite (U d (or_intror (or_introl eq_refl))). reflexivity. }
    simpl. rewrite clean_comps_app, G, rev_involutive. simpl. destruct st as [|d st]; [reflexivity|].
    rewrite (U d (or_introl eq_refl)). reflexivity.
Qed.
Lemma tidy_component r st : tidy r st -> Forall component st.
Proof.
  induction 1 as [|c st P T IH|st R U]; [constructor|constructor; [apply P|exact IH]|].
  apply Forall_forall. intros c [<-|Hc]; [|rewrite (U c Hc)]; (split; [discriminate|split; [discriminate|exact no_slash_dots]]).
Qed.
Lemma join_empty sep l : (forall c, In c l -> c <> "") -> join sep l = "" -> l = [].
Proof.
  intros H E. destruct l as [|a [|b l]]; [reflexivity| |]; simpl in E.
  - elim (H a (or_introl eq_refl) E).
  - destruct a; [elim (H "" (or_introl eq_refl) eq_refl)|discriminate].
Qed.
Definition rooted (p : string) : bool := has_prefix "/" p.
Definition comps (p : string) : list string := clean_comps (rooted p) (split "/" p) [].
Lemma comps_tidy p : exists st, comps p = rev st /\ tidy (rooted p) st.
Proof.
  apply clean_tidy; [|constructor]. intros c Hc. apply no_char_smem. eapply split_no_sep. exact Hc.
Qed.
Lemma comps_component p : Forall component (comps p).
Proof.
  destruct (comps_tidy p) as (st & -> & T). apply Forall_rev. eapply tidy_component. exact T.
Qed.
Lemma clean_path p : p <> "" -> path_is (clean p) (rooted p) (comps p).
Proof.
  intros N. split; [apply comps_component|]. unfold clean. destruct (p =?s "") eqn:E; [apply seqb_eq in E; congruence|].
  fold (rooted p). fold (comps p). destruct (rooted p); [reflexivity|].
  destruct (join "/" (comps p) =?s "") eqn:J.
  - apply seqb_eq in J. left. split; [|reflexivity]. apply (join_empty "/"); [|exact J].
    intros c Hc. assert (F := comps_component p). rewrite Forall_forall in F. apply (F c Hc).
  - right. split; [|reflexivity]. intros X. rewrite X in J. discriminate.
Qed.
(** a clean path, read again *)
Lemma split_comps l : Forall component l -> l <> [] -> split "/" (join "/" l) = l.
Proof.
  intros F N. apply split_join; [exact N|]. intros x Hx. rewrite Forall_forall in F. apply no_char_smem, (F x Hx).
Qed.
Lemma clean_idem p : p <> "" -> rooted (clean p) = rooted p /\ comps (clean p) = comps p /\ clean p <> "".
Proof.
  intros N. destruct (clean_path p N) as [F P]. destruct (comps_tidy p) as (st & E & T).
  assert (X := tidy_fixed _ _ T). rewrite <- E in X.
  assert (R : rooted (clean p) = rooted p /\ clean p <> "").
  { destruct (rooted p).
    - rewrite P. split; [reflexivity|discriminate].
    - destruct P as [[_ ->]|[Nl ->]]; [split; [reflexivity|discriminate]|]. destruct (comps p) as [|c l]; [congruence|].
      inversion F as [|? ? [C1 [C2 C3]] F']; subst. apply no_char_smem in C3.
      destruct c as [|a c]; [congruence|]. simpl in C3. apply orb_false_iff in C3. destruct C3 as [C3 _].
      unfold rooted. split; [|destruct l; discriminate]. rewrite Ascii.eqb_sym in C3. destruct l; cbn [join has_prefix append]; rewrite C3; reflexivity. }
  destruct R as [R Ne]. split; [exact R|]. split; [|exact Ne]. unfold comps at 1. rewrite R.
  destruct (rooted p) eqn:Q.
  - rewrite P. change ("/" +++ join "/" (comps p)) with (String "/" (join "/" (comps p))). cbn [split]. rewrite Ascii.eqb_refl.
    cbn [clean_comps]. rewrite seqb_refl. cbn [orb].
    destruct (comps p) as [|c l] eqn:Z; [reflexivity|]. rewrite split_comps; [exact X|exact F|discriminate].
  - destruct P as [[Z ->]|[Nl ->]]; [rewrite Z; reflexivity|]. rewrite split_comps; [exact X|exact F|exact Nl].
Qed.
Lemma rooted_app a b : a <> "" -> rooted (a +++ b) = rooted a.
Proof. destruct a as [|c a]; [congruence|]. intros _. unfold rooted. simpl. destruct (Ascii.eqb "/" c); [|reflexivity]. destruct a; reflexivity. Qed.
Lemma join_below a b : a <> "" -> (forall c, In c (split "/" b) -> c = "" \/ plain_component c) ->
  below (clean a) (path_join [a; b]) (filter nonempty (split "/" b)) /\ path_join [a; b] <> "".
Proof.
  intros N H. assert (Pl : Forall plain_component (filter nonempty (split "/" b))).
  { apply Forall_forall. intros c Hc. apply filter_In in Hc. destruct Hc as [Hc Q].
    destruct (H c Hc) as [-> | P]; [discriminate|exact P]. }
  unfold path_join. cbn [filter]. destruct (a =?s "") eqn:E; [apply seqb_eq in E; congruence|]. cbn [negb].
  destruct (b =?s "") eqn:E2; cbn [negb].
  - apply seqb_eq in E2. subst b. simpl. split; [|apply clean_idem; exact N]. split; [constructor|]. exists (rooted a), (comps a).
    rewrite app_nil_r. split; apply clean_path; exact N.
  - cbn [join]. assert (N' : a +++ "/" +++ b <> "") by (destruct a; [congruence|discriminate]).
    split; [|apply clean_idem; exact N']. split; [exact Pl|]. exists (rooted a), (comps a). split; [apply clean_path; exact N|].
    assert (C := clean_path _ N'). rewrite rooted_app in C by exact N.
    replace (comps a ++ _) with (comps (a +++ "/" +++ b)); [exact C|].
    unfold comps at 1. rewrite rooted_app by exact N. change ("/" +++ b) with (String "/" b).
    rewrite split_app_gen, clean_comps_app, clean_plain by exact H. rewrite rev_involutive. reflexivity.
Qed.
Lemma dots_to_slashes pkg c : In c (split "/" (if smem "." pkg then join "/" (split "." pkg) else pkg)) -> c = "" \/ plain_component c.
Proof.
  set (q := if smem "." pkg then _ else _). intros Hc.
  assert (D : smem "." q = false).
  { unfold q. destruct (smem "." pkg) eqn:E; [|exact E]. assert (S := split_no_sep "." pkg). clear E Hc q.
    induction (split "." pkg) as [|a l IH]; [reflexivity|]. cbn [join]. destruct l as [|b l]; [apply S; left; reflexivity|].
    rewrite !smem_app, (S a (or_introl eq_refl)). rewrite IH; [reflexivity|]. intros x Hx. apply S. right. exact Hx. }
  assert (Dc : smem "." c = false).
  { rewrite <- (join_split "/" q) in D. revert D Hc. induction (split "/" q) as [|a l IH]; [intros _ []|]. cbn [join].
    destruct l as [|b l]; [intros D [->|[]]; exact D|]. rewrite !smem_app. intros D [->|Hc]; apply orb_false_iff in D; destruct D as [D1 D2]; [exact D1|].
    apply orb_false_iff in D2. apply IH; [apply D2|exact Hc]. }
  destruct (string_dec c "") as [->|N]; [left; reflexivity|right].
  split; [split; [exact N|split; [intros ->; discriminate|]]|intros ->; discriminate].
  apply no_char_smem. eapply split_no_sep. exact Hc.
Qed.
Lemma package_below outdir pkg : outdir <> "" ->
  (exists l, below (clean outdir) (package_dir outdir pkg) l) /\ package_dir outdir pkg <> "".
Proof.
  intros N. destruct (join_below outdir _ N (dots_to_slashes pkg)) as [B E]. split; [eexists; exact B|exact E].
Qed.
Lemma package_dotted l : l <> [] -> (forall x, In x l -> no_char "." x) ->
  (if smem "." (join "." l) then join "/" (split "." (join "." l)) else join "." l) = join "/" l.
Proof.
  intros N H. rewrite (split_join "." l N) by (intros x Hx; apply no_char_smem, H, Hx).
  destruct (smem "." (join "." l)) eqn:E; [reflexivity|]. destruct l as [|a [|b l]]; [congruence|reflexivity|].
  cbn [join] in E. rewrite !smem_app in E. simpl in E. rewrite orb_true_r in E. discriminate.
Qed.
Lemma package_exact outdir l : outdir <> "" -> l <> [] -> (forall x, In x l -> plain_component x /\ no_char "." x) ->
  below (clean outdir) (package_dir outdir (join "." l)) l.
Proof.
  intros N Nl H. assert (D := package_dotted l Nl (fun x Hx => proj2 (H x Hx))).
  destruct (join_below outdir _ N (dots_to_slashes (join "." l))) as [B _]. unfold package_dir. rewrite D in *.
  replace l with (filter nonempty (split "/" (join "/" l))) at 2; [exact B|].
  rewrite split_comps; [|apply Forall_forall; intros x Hx; apply (H x Hx)|exact Nl].
  clear -H. induction l as [|a l IH]; [reflexivity|]. cbn [filter]. rewrite IH by (intros x Hx; apply H; right; exact Hx).
  destruct (H a (or_introl eq_refl)) as [[[A _] _] _]. unfold nonempty. destruct (a =?s "") eqn:E; [apply seqb_eq in E; congruence|]. reflexivity.
Qed.
Lemma clean_clean p : p <> "" -> clean (clean p) = clean p.
Proof.
  intros N. destruct (clean_idem p N) as (R & C & Ne). unfold clean at 1.
  destruct (clean p =?s "") eqn:E; [apply seqb_eq in E; congruence|]. fold (rooted (clean p)). fold (comps (clean p)). rewrite R, C.
  destruct (clean_path p N) as [_ P]. destruct (rooted p); [symmetry; exact P|]. destruct P as [[Z P]|[Nl P]]; rewrite P.
  - rewrite Z. reflexivity.
  - rewrite <- P. destruct (clean p =?s "") eqn:E2; [congruence|reflexivity].
Qed.
Lemma package_clean outdir pkg : outdir <> "" -> clean (package_dir outdir pkg) = package_dir outdir pkg.
Proof.
  intros N. unfold package_dir, path_join. cbn [filter]. destruct (outdir =?s "") eqn:E; [apply seqb_eq in E; congruence|]. cbn [negb].
  set (q := if smem "." pkg then _ else _). destruct (q =?s ""); cbn [negb join].
  - apply clean_clean. exact N.
  - apply clean_clean. destruct outdir; [congruence|discriminate].
Qed.
Lemma cap_no_slash s : smem "/" s = false -> smem "/" (capitalize s) = false /\ smem "/" (uncapitalize s) = false.
Proof.
  destruct s as [|c s]; [split; reflexivity|]. simpl. intros H. apply orb_false_iff in H. destruct H as [H1 H2].
  rewrite !smem_app, H2, !orb_false_r. unfold upper1, lower1. revert H1.
  destruct c as [[] [] [] [] [] [] [] []]; vm_compute; intros; split; congruence.
Qed.
Definition go_suffixes : list string := ["_model.go"; "_client.go"; "_server.go"].
Lemma file_below outdir pkg name suffix : outdir <> "" -> no_char "/" name -> In suffix go_suffixes ->
  exists f, below (package_dir outdir pkg) (go_file outdir pkg name suffix) [f].
Proof.
  intros N H S. destruct (package_below outdir pkg N) as [_ Ne]. set (f := uncapitalize (capitalize name) +++ suffix).
  assert (Sl : smem "/" f = false).
  { unfold f. rewrite smem_app. replace (smem "/" suffix) with false.
    - rewrite orb_false_r. apply cap_no_slash, cap_no_slash, no_char_smem, H.
    - destruct S as [<-|[<-|[<-|[]]]]; reflexivity. }
  assert (L : 3 <= String.length f).
  { unfold f. assert (E : forall a b, String.length (a +++ b) = String.length a + String.length b)
      by (induction a as [|x a IH]; intros b; simpl; [reflexivity|rewrite IH; reflexivity]).
    rewrite E. destruct S as [<-|[<-|[<-|[]]]]; simpl; lia. }
  assert (P : plain_component f).
  { split; [split; [|split; [|apply no_char_smem; exact Sl]]|]; intros X; rewrite X in L; simpl in L; lia. }
  assert (B := join_below (package_dir outdir pkg) f Ne). rewrite (split_noc "/" f Sl) in B.
  destruct B as [B _]; [intros c [<-|[]]; right; exact P|]. exists f. rewrite package_clean in B by exact N.
  cbn [filter] in B. unfold nonempty in B. destruct (f =?s "") eqn:E; [apply seqb_eq in E; rewrite E in L; simpl in L; lia|]. exact B.
Qed.
