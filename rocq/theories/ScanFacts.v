(** Facts about parser programs in general: pushing back, block comments, fuel. *)
From Verif Require Import GoStr Outcome Value Scan.

Lemma teqb_eq a b : teqb a b = true <-> a = b.
Proof. unfold teqb. destruct (ttype_eq_dec a b); split; congruence. Qed.
Lemma teqb_refl a : teqb a a = true.
Proof. apply teqb_eq. reflexivity. Qed.
Lemma teqb_neq a b : teqb a b = false <-> a <> b.
Proof. unfold teqb. destruct (ttype_eq_dec a b); split; congruence. Qed.

(** ** What is still to come *)
Definition is_block (t : token) : bool := teqb (tk_type t) BLOCK_COMMENT.
Definition strip (l : list token) : list token := filter (fun t => negb (is_block t)) l.
Definition pending (st : pstate) : list token :=
  match ps_ungot st with Some t => t :: strip (ps_rest st) | None => strip (ps_rest st) end.

Lemma strip_app a b : strip (a ++ b) = strip a ++ strip b.
Proof. apply filter_app. Qed.
Lemma strip_idem l : strip (strip l) = strip l.
Proof.
  unfold strip. induction l as [|t l IH]; simpl; [reflexivity|].
  destruct (is_block t) eqn:E; simpl; rewrite ?E; simpl; congruence.
Qed.
Lemma strip_length l : length (strip l) <= length l.
Proof. unfold strip. induction l as [|t l IH]; simpl; [lia|]. destruct (is_block t); simpl; lia. Qed.

Lemma skip_block_spec l :
  match skip_block l with
  | Some (t, r) => strip l = t :: strip r /\ length r < length l
  | None => strip l = []
  end.
Proof.
  unfold strip. induction l as [|t l IH]; simpl; [reflexivity|].
  unfold is_block in *. destruct (tk_type t) eqn:E; simpl; try (split; [reflexivity|lia]).
  destruct (skip_block l) as [[t' r]|]; simpl in *; [destruct IH; split; [assumption|lia]|assumption].
Qed.

(** a token has just been read from the stream (and can be pushed back) *)
Definition fresh (st : pstate) (t : token) : Prop := ps_ungot st = None /\ ps_last st = Some t.

Lemma get_token_spec st :
  match get_token st with
  | (Some t, st') => pending st = t :: pending st' /\ fresh st' t
  | (None, st') => pending st = [] /\ pending st' = [] /\ ps_ungot st' = None
  end.
Proof.
  unfold get_token, pending, fresh. destruct (ps_ungot st) as [t|].
  - simpl. auto.
  - pose proof (skip_block_spec (ps_rest st)) as H.
    destruct (skip_block (ps_rest st)) as [[t r]|]; simpl; intuition auto.
Qed.
Lemma unget_token_spec st t : fresh st t -> pending (unget_token st) = t :: pending st.
Proof. intros (H1 & H2). unfold pending, unget_token. simpl. rewrite H1, H2. reflexivity. Qed.

(** ** run *)
Lemma run_bind {A B} (p : prog A) (f : A -> prog B) st :
  run (bind p f) st = rbind (run p st) (fun '(a, st') => run (f a) st').
Proof.
  revert st. induction p as [a|e| | |k IH|p IH]; intros st; simpl; try reflexivity.
  - destruct (get_token st) as [t st']. apply IH.
  - apply IH.
Qed.

(** ** Block comments *)
Definition sim (s1 s2 : pstate) : Prop :=
  ps_ungot s1 = ps_ungot s2 /\ ps_last s1 = ps_last s2 /\ ps_prev s1 = ps_prev s2
  /\ strip (ps_rest s1) = strip (ps_rest s2).
Lemma get_token_sim s1 s2 : sim s1 s2 ->
  fst (get_token s1) = fst (get_token s2) /\ sim (snd (get_token s1)) (snd (get_token s2)).
Proof.
  intros (H1 & H2 & H3 & H4). unfold get_token. rewrite H1, H2, H3.
  destruct (ps_ungot s2); simpl.
  - repeat split; assumption.
  - pose proof (skip_block_spec (ps_rest s1)) as A. pose proof (skip_block_spec (ps_rest s2)) as B.
    destruct (skip_block (ps_rest s1)) as [[t r]|], (skip_block (ps_rest s2)) as [[t' r']|].
    + destruct A as (A & _), B as (B & _). rewrite H4, B in A. injection A; intros; subst.
      unfold sim; simpl. repeat split; congruence.
    + destruct A as (A & _). congruence.
    + destruct B as (B & _). congruence.
    + simpl. repeat split.
Qed.
Lemma unget_token_sim s1 s2 : sim s1 s2 -> sim (unget_token s1) (unget_token s2).
Proof. intros (H1 & H2 & H3 & H4). unfold sim, unget_token; simpl. auto. Qed.
Definition same_outcome {A} (r1 r2 : result perror (A * pstate)) : Prop :=
  match r1, r2 with
  | Ok (a, s1), Ok (b, s2) => a = b /\ sim s1 s2
  | Err e, Err e' => e = e'
  | Panic, Panic => True
  | OutOfFuel, OutOfFuel => True
  | _, _ => False
  end.
Lemma run_sim {A} (p : prog A) : forall s1 s2, sim s1 s2 -> same_outcome (run p s1) (run p s2).
Proof.
  induction p as [a|e| | |k IH|p IH]; intros s1 s2 H; simpl; auto.
  - pose proof (get_token_sim _ _ H) as (E & S).
    destruct (get_token s1) as [t1 s1'], (get_token s2) as [t2 s2']. simpl in E, S. subst. auto.
  - apply IH. apply unget_token_sim. exact H.
Qed.
Lemma sim_start l l' : strip l = strip l' -> sim (start l) (start l').
Proof. unfold sim, start. simpl. auto. Qed.

(** ** Fuel: the left program may give up where the right one goes on *)
Inductive le_prog {A} : prog A -> prog A -> Prop :=
| le_spin q : le_prog Spin q
| le_ret a : le_prog (Ret a) (Ret a)
| le_fail e : le_prog (Fail e) (Fail e)
| le_crash : le_prog Crash Crash
| le_get k k' : (forall t, le_prog (k t) (k' t)) -> le_prog (Get k) (Get k')
| le_unget k k' : le_prog k k' -> le_prog (Unget k) (Unget k').

Lemma le_refl {A} (p : prog A) : le_prog p p.
Proof. induction p; constructor; auto. Qed.
Lemma le_bind {A B} (p p' : prog A) (f f' : A -> prog B) :
  le_prog p p' -> (forall a, le_prog (f a) (f' a)) -> le_prog (bind p f) (bind p' f').
Proof.
  intros H Hf. induction H; simpl; auto; try (constructor; auto).
Qed.
Lemma le_try {A} (p p' : prog A) : le_prog p p' -> le_prog (try p) (try p').
Proof. intros H. induction H; simpl; constructor; auto. Qed.
Lemma le_loop {S A} n n' (b b' : S -> prog (S + A)) s : n <= n' ->
  (forall s, le_prog (b s) (b' s)) -> le_prog (loop n b s) (loop n' b' s).
Proof.
  intros Hn Hb. revert n' s Hn. induction n as [|n IH]; intros n' s Hn; simpl; [constructor|].
  destruct n' as [|n']; [lia|]. simpl. apply le_bind; [apply Hb|].
  intros [s'|a]; [apply IH; lia|constructor].
Qed.
Lemma le_run {A} (p q : prog A) : le_prog p q -> forall st, run p st <> OutOfFuel -> run q st = run p st.
Proof.
  intros H. induction H; intros st Hn; simpl in *; try reflexivity; try congruence.
  - destruct (get_token st) as [t st']. auto.
  - auto.
Qed.

(** ** Rules for showing what a program does: [ends E C p st Q]: it terminates, an error is
    one of [E] (with the state it leaves), a crash is excused by [C], and otherwise [Q] holds of
    value and state. *)
Section Ends.
Variables (E : perror -> pstate -> Prop) (C : Prop).
Fixpoint ends {A} (p : prog A) (st : pstate) (Q : A -> pstate -> Prop) : Prop :=
  match p with
  | Ret a => Q a st
  | Fail e => E e st
  | Crash => C
  | Spin => False
  | Get k => let '(t, st') := get_token st in ends (k t) st' Q
  | Unget k => ends k (unget_token st) Q
  end.
Lemma ends_run {A} (p : prog A) : forall st (Q : A -> pstate -> Prop),
  ends p st Q ->
  match run p st with
  | Ok (a, st') => Q a st'
  | Err e => exists st', E e st'
  | Panic => C
  | OutOfFuel => False
  end.
Proof.
  induction p as [a|e| | |k IH|p IH]; intros st Q H; simpl in *; eauto.
  - destruct (get_token st) as [t st']. exact (IH _ _ _ H).
  - exact (IH _ _ H).
Qed.
Lemma ends_of_run {A} (p : prog A) : forall st (Q : A -> pstate -> Prop) a st',
  run p st = Ok (a, st') -> Q a st' -> ends p st Q.
Proof.
  induction p as [a|e| | |k IH|p IH]; intros st Q b st' H HQ; simpl in *; try discriminate.
  - injection H as <- <-. exact HQ.
  - destruct (get_token st) as [t st1]. eauto.
  - eauto.
Qed.

Lemma ends_ret {A} (a : A) st (Q : A -> pstate -> Prop) : Q a st -> ends (Ret a) st Q.
Proof. exact (fun H => H). Qed.
Lemma ends_fail {A} e st (Q : A -> pstate -> Prop) : E e st -> ends (Fail e) st Q.
Proof. exact (fun H => H). Qed.
Lemma ends_bind {A B} (p : prog A) (f : A -> prog B) : forall st (Q : B -> pstate -> Prop),
  ends p st (fun a st' => ends (f a) st' Q) -> ends (bind p f) st Q.
Proof.
  induction p as [a|e| | |k IH|p IH]; intros st Q H; simpl in *; auto.
  destruct (get_token st) as [t st']. auto.
Qed.
Lemma ends_mono {A} (p : prog A) : forall st (Q Q' : A -> pstate -> Prop),
  ends p st Q' -> (forall a st', Q' a st' -> Q a st') -> ends p st Q.
Proof.
  induction p as [a|e| | |k IH|p IH]; intros st Q Q' H HQ; simpl in *; auto.
  - destruct (get_token st) as [t st']. eauto.
  - eauto.
Qed.

(** with the list of what is to come *)
Lemma ends_get {A} (k : option token -> prog A) st (Q : A -> pstate -> Prop) :
  match pending st with
  | t :: r => forall st', pending st' = r -> fresh st' t -> ends (k (Some t)) st' Q
  | [] => forall st', pending st' = [] -> ps_ungot st' = None -> ends (k None) st' Q
  end -> ends (Get k) st Q.
Proof.
  intros H. simpl. pose proof (get_token_spec st) as G.
  destruct (get_token st) as [[t|] st'].
  - destruct G as (G1 & G2). rewrite G1 in H. apply H; auto.
  - destruct G as (G1 & G2 & G3). rewrite G1 in H. apply H; auto.
Qed.
Lemma ends_unget {A} (p : prog A) st t (Q : A -> pstate -> Prop) : fresh st t ->
  (forall st', pending st' = t :: pending st -> ends p st' Q) -> ends (Unget p) st Q.
Proof. intros F H. simpl. apply H. apply unget_token_spec, F. Qed.
(** pushing back when the end of the file was met: some token may reappear *)
Lemma ends_unget_any {A} (p : prog A) st (Q : A -> pstate -> Prop) : ps_ungot st = None ->
  (forall st', length (pending st') <= S (length (pending st)) -> ends p st' Q) -> ends (Unget p) st Q.
Proof.
  intros F H. simpl. apply H. unfold pending, unget_token. simpl. rewrite F.
  destruct (ps_last st); simpl; lia.
Qed.
Lemma ends_loop {S A} (I : S -> pstate -> Prop) (body : S -> prog (S + A)) (Q : A -> pstate -> Prop) :
  forall fuel s st, length (pending st) < fuel -> I s st ->
  (forall s st, length (pending st) < fuel -> I s st ->
     ends (body s) st (fun r st' => match r with
       | inl s' => length (pending st') < length (pending st) /\ I s' st'
       | inr a => Q a st' end)) ->
  ends (loop fuel body s) st Q.
Proof.
  induction fuel as [|f IH]; intros s st Hm Hi Hb; [lia|].
  simpl. apply ends_bind. eapply ends_mono; [apply Hb; assumption|].
  intros [s'|a] st' Hr; [|exact Hr].
  destruct Hr as (Hr & Hi'). apply IH; [lia|assumption|].
  intros s0 st0 H0 I0. apply Hb; [lia|assumption].
Qed.
End Ends.
Lemma ends_try E C {A} (p : prog A) : forall st (Q : option A -> pstate -> Prop),
  ends (fun _ st' => Q None st') C p st (fun a st' => Q (Some a) st') -> ends E C (try p) st Q.
Proof.
  induction p as [a|e| | |k IH|p IH]; intros st Q H; simpl in *; auto.
  destruct (get_token st) as [t st']. auto.
Qed.
Lemma ends_weaken (E E' : perror -> pstate -> Prop) (C C' : Prop) {A} (p : prog A) :
  (forall e st, E e st -> E' e st) -> (C -> C') ->
  forall st Q, ends E C p st Q -> ends E' C' p st Q.
Proof.
  intros HE HC. induction p as [a|e| | |k IH|p IH]; intros st Q H; simpl in *; auto.
  destruct (get_token st) as [t st']. auto.
Qed.
#[global] Arguments ends : simpl never.
#[global] Arguments bind : simpl never.
#[global] Arguments loop : simpl never.
#[global] Arguments try : simpl never.
