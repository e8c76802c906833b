(** Parser programs as functions on the list of tokens ahead. *)
From Verif Require Import GoStr Outcome Value Scan ScanFacts.

(** [f l] is what the program gives on the tokens [l]: the result and the tokens left, or [None] if it does not succeed *)
Definition does {A} (o : option (A * list token)) (r : result perror (A * pstate)) : Prop :=
  match o with
  | Some (a, l) => exists st, r = Ok (a, st) /\ pending st = l
  | None => forall x, r <> Ok x
  end.
Definition acts {A} (p : prog A) (f : list token -> option (A * list token)) : Prop :=
  forall st, does (f (pending st)) (run p st).
(** the same just after the token [t] was read *)
Definition acts_at {A} (t : token) (p : prog A) (f : list token -> option (A * list token)) : Prop :=
  forall st, fresh st t -> does (f (pending st)) (run p st).

Definition obind {A B} (o : option (A * list token)) (g : A -> list token -> option (B * list token)) :=
  match o with Some (a, l) => g a l | None => None end.
Definition case_list {B} (fn : B) (fc : token -> list token -> B) (l : list token) : B :=
  match l with [] => fn | t :: r => fc t r end.

Lemma acts_ext {A} (p : prog A) f g : (forall l, f l = g l) -> acts p f -> acts p g.
Proof. intros E H st. rewrite <- E. apply H. Qed.
Lemma acts_at_ext {A} t (p : prog A) f g : (forall l, f l = g l) -> acts_at t p f -> acts_at t p g.
Proof. intros E H st. rewrite <- E. apply H. Qed.
Lemma acts_any {A} t (p : prog A) f : acts p f -> acts_at t p f.
Proof. intros H st _. apply H. Qed.
Lemma acts_ret {A} (a : A) : acts (Ret a) (fun l => Some (a, l)).
Proof. intros st. simpl. eauto. Qed.
Lemma acts_fail {A} e : acts (@Fail A e) (fun _ => None).
Proof. intros st x. discriminate. Qed.
Lemma acts_crash {A} : acts (@Crash A) (fun _ => None).
Proof. intros st x. discriminate. Qed.
Lemma acts_spin {A} : acts (@Spin A) (fun _ => None).
Proof. intros st x. discriminate. Qed.

Lemma does_bind {A B} o (r : result perror (A * pstate)) (g : A -> prog B) h :
  does o r -> (forall a, acts (g a) (h a)) -> does (obind o h) (rbind r (fun '(a, st) => run (g a) st)).
Proof.
  intros H G. destruct o as [[a l]|]; simpl in *.
  - destruct H as (st & -> & <-). simpl. apply G.
  - destruct r as [[a st]|e| |]; simpl; try discriminate. destruct (H (a, st) eq_refl).
Qed.
Lemma acts_bind {A B} (p : prog A) (g : A -> prog B) f h :
  acts p f -> (forall a, acts (g a) (h a)) -> acts (bind p g) (fun l => obind (f l) h).
Proof. intros H G st. rewrite run_bind. apply does_bind; auto. Qed.
Lemma acts_at_bind {A B} t (p : prog A) (g : A -> prog B) f h :
  acts_at t p f -> (forall a, acts (g a) (h a)) -> acts_at t (bind p g) (fun l => obind (f l) h).
Proof. intros H G st F. rewrite run_bind. apply does_bind; auto. Qed.

Lemma acts_get {A} (k : option token -> prog A) fn fc :
  (forall t, acts_at t (k (Some t)) (fc t)) -> acts (k None) (fun _ => fn) ->
  acts (Get k) (case_list fn fc).
Proof.
  intros Hc Hn st. simpl. pose proof (get_token_spec st) as G.
  destruct (get_token st) as [[t|] st'].
  - destruct G as (-> & F). simpl. apply Hc, F.
  - destruct G as (-> & _). simpl. apply Hn.
Qed.
Lemma acts_at_get {A} t0 (k : option token -> prog A) fn fc :
  (forall t, acts_at t (k (Some t)) (fc t)) -> acts (k None) (fun _ => fn) ->
  acts_at t0 (Get k) (case_list fn fc).
Proof. intros. apply acts_any, acts_get; assumption. Qed.
Lemma acts_unget {A} t (p : prog A) f : acts p f -> acts_at t (Unget p) (fun l => f (t :: l)).
Proof. intros H st F. simpl. rewrite <- (unget_token_spec _ _ F). apply H. Qed.

Fixpoint floop {S A} (n : nat) (f : S -> list token -> option ((S + A) * list token)) (s : S) (l : list token)
  : option (A * list token) :=
  match n with
  | O => None
  | Datatypes.S n =>
      match f s l with
      | Some (inl s', l') => floop n f s' l'
      | Some (inr a, l') => Some (a, l')
      | None => None
      end
  end.
Lemma acts_loop {S A} (body : S -> prog (S + A)) f : (forall s, acts (body s) (f s)) ->
  forall n s, acts (loop n body s) (floop n f s).
Proof.
  intros H. induction n as [|n IH]; intros s; cbn [loop floop]; [apply acts_spin|].
  eapply acts_ext; [|apply (acts_bind _ _ _
    (fun r => match r with inl s' => floop n f s' | inr a => fun l => Some (a, l) end) (H s))].
  - intros l. unfold obind. destruct (f s l) as [[[s'|a] l']|]; reflexivity.
  - intros [s'|a]; [apply IH|apply acts_ret].
Qed.
Lemma floop_step {S A} n (f : S -> list token -> option ((S + A) * list token)) s l :
  floop (Datatypes.S n) f s l = match f s l with
      | Some (inl s', l') => floop n f s' l'
      | Some (inr a, l') => Some (a, l')
      | None => None
      end.
Proof. reflexivity. Qed.

(** one program, two descriptions *)
Lemma acts_run {A} (p : prog A) f st a st' : acts p f -> run p st = Ok (a, st') -> f (pending st) = Some (a, pending st').
Proof.
  intros H R. specialize (H st). rewrite R in H. unfold does in H. destruct (f (pending st)) as [[b l]|].
  - destruct H as (s & E & <-). injection E as <- <-. reflexivity.
  - destruct (H _ eq_refl).
Qed.
Lemma run_acts {A} (p : prog A) f st a l : acts p f -> f (pending st) = Some (a, l) ->
  exists st', run p st = Ok (a, st') /\ pending st' = l.
Proof. intros H E. specialize (H st). rewrite E in H. exact H. Qed.
