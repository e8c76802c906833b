(** Parser programs that succeed on given tokens, once their fuel is large enough. *)
From Verif Require Import GoStr Outcome Value Scan ScanFacts Acts.

(** the tokens ahead are [l] (block comments aside); [Some t]: the token [t] has just been read *)
Definition at_ (o : option token) (l : list token) (st : pstate) : Prop :=
  pending st = strip l /\ match o with Some t => fresh st t | None => True end.
Definition gets {A} (p : prog A) (o : option token) (l : list token) (a : A) (o' : option token) (l' : list token) : Prop :=
  forall st, at_ o l st -> exists st', run p st = Ok (a, st') /\ at_ o' l' st'.
(** [p n] does it for all large [n] *)
Definition yields {A} (p : nat -> prog A) o l a o' l' : Prop :=
  exists N, forall n, N <= n -> gets (p n) o l a o' l'.

Lemma at_weak o l st : at_ o l st -> at_ None l st.
Proof. intros (H & _). split; [exact H|exact I]. Qed.
Lemma y_weak_l {A} (p : nat -> prog A) o l a o' l' : yields p None l a o' l' -> yields p o l a o' l'.
Proof. intros (N & H). exists N. intros n Hn st S. apply (H n Hn). exact (at_weak _ _ _ S). Qed.
Lemma y_weak_r {A} (p : nat -> prog A) o l a o' l' : yields p o l a o' l' -> yields p o l a None l'.
Proof.
  intros (N & H). exists N. intros n Hn st S. destruct (H n Hn st S) as (st' & R & S').
  exists st'. split; [exact R|exact (at_weak _ _ _ S')].
Qed.
Lemma y_ret {A} (a : A) o l : yields (fun _ => Ret a) o l a o l.
Proof. exists 0. intros n _ st S. exists st. split; [reflexivity|exact S]. Qed.
Lemma y_ret' {A} (a b : A) o l : a = b -> yields (fun _ => Ret a) o l b o l.
Proof. intros ->. apply y_ret. Qed.
Lemma y_get {A} (k : nat -> option token -> prog A) o t l a o' l' : is_block t = false ->
  yields (fun n => k n (Some t)) (Some t) l a o' l' -> yields (fun n => Get (k n)) o (t :: l) a o' l'.
Proof.
  intros B (N & H). exists N. intros n Hn st (P & _). simpl. unfold strip in P. simpl in P. rewrite B in P. simpl in P.
  pose proof (get_token_spec st) as G. destruct (get_token st) as [[t'|] st'].
  - destruct G as (G & F). rewrite P in G. injection G as <- G. apply (H n Hn). split; [exact (eq_sym G)|exact F].
  - destruct G as (G & _). congruence.
Qed.
Lemma y_get_eof {A} (k : nat -> option token -> prog A) o a o' l' :
  yields (fun n => k n None) None [] a o' l' -> yields (fun n => Get (k n)) o [] a o' l'.
Proof.
  intros (N & H). exists N. intros n Hn st (P & _). simpl.
  pose proof (get_token_spec st) as G. destruct (get_token st) as [[t'|] st'].
  - destruct G as (G & F). rewrite P in G. discriminate.
  - destruct G as (_ & G & _). apply (H n Hn). split; [exact G|exact I].
Qed.
Lemma y_unget {A} (p : nat -> prog A) t l a o' l' : is_block t = false ->
  yields p None (t :: l) a o' l' -> yields (fun n => Unget (p n)) (Some t) l a o' l'.
Proof.
  intros B (N & H). exists N. intros n Hn st (P & F). simpl. apply (H n Hn). split; [|exact I].
  rewrite (unget_token_spec _ _ F), P. unfold strip. simpl. rewrite B. reflexivity.
Qed.
Lemma y_bind {A B} (p : nat -> prog A) (f : nat -> A -> prog B) o l a o1 l1 b o2 l2 :
  yields p o l a o1 l1 -> yields (fun n => f n a) o1 l1 b o2 l2 -> yields (fun n => bind (p n) (f n)) o l b o2 l2.
Proof.
  intros (N & H) (M & K). exists (N + M). intros n Hn st S. rewrite run_bind.
  destruct (H n ltac:(lia) st S) as (st1 & -> & S1). simpl. apply (K n ltac:(lia) st1 S1).
Qed.
Lemma y_S {A} (p : nat -> prog A) o l a o' l' : yields (fun n => p (S n)) o l a o' l' -> yields p o l a o' l'.
Proof.
  intros (N & H). exists (S N). intros n Hn. destruct n as [|n]; [lia|]. apply (H n). lia.
Qed.
Lemma y_ext {A} (p q : nat -> prog A) o l a o' l' : (forall n, p n = q n) -> yields q o l a o' l' -> yields p o l a o' l'.
Proof. intros E (N & H). exists N. intros n Hn. rewrite E. auto. Qed.
Lemma y_eq {A} (p : nat -> prog A) o l a b o' l' : a = b -> yields p o l a o' l' -> yields p o l b o' l'.
Proof. intros ->. auto. Qed.

(** loops *)
Inductive iters {S A} (body : nat -> S -> prog (S + A)) : S -> option token -> list token -> A -> option token -> list token -> Prop :=
| it_stop s o l a o' l' : yields (fun n => body n s) o l (inr a) o' l' -> iters body s o l a o' l'
| it_next s o l s' o1 l1 a o' l' : yields (fun n => body n s) o l (inl s') o1 l1 -> iters body s' o1 l1 a o' l' ->
    iters body s o l a o' l'.
Lemma loop_S {S A} k (body : S -> prog (S + A)) s :
  loop (Datatypes.S k) body s = bind (body s) (fun r => match r with inl s' => loop k body s' | inr a => Ret a end).
Proof. reflexivity. Qed.
Lemma y_loop_both {S A} (body : nat -> S -> prog (S + A)) s o l a o' l' : iters body s o l a o' l' ->
  exists N K, forall n k, N <= n -> K <= k -> gets (loop k (body n) s) o l a o' l'.
Proof.
  induction 1 as [s o l a o' l' (N & H)|s o l s' o1 l1 a o' l' (N & H) _ (M & K & IH)].
  - exists N, 1. intros n k Hn Hk st S0. destruct k as [|k]; [lia|]. rewrite loop_S, run_bind.
    destruct (H n Hn st S0) as (st' & -> & S1). simpl. eauto.
  - exists (N + M), (Datatypes.S K). intros n k Hn Hk st S0. destruct k as [|k]; [lia|]. rewrite loop_S, run_bind.
    destruct (H n ltac:(lia) st S0) as (st' & -> & S1). simpl. apply (IH n k ltac:(lia) ltac:(lia) st' S1).
Qed.
Lemma y_loop {S A} (body : nat -> S -> prog (S + A)) s o l a o' l' : iters body s o l a o' l' ->
  yields (fun n => loop n (body n) s) o l a o' l'.
Proof. intros H. apply y_loop_both in H as (N & K & H). exists (N + K). intros n Hn. apply H; lia. Qed.

(** a program described as a function on lists *)
Lemma y_acts {A} (p : nat -> prog A) (f : nat -> list token -> option (A * list token)) l a l' N :
  (forall n, acts (p n) (f n)) -> (forall n, N <= n -> f n (strip l) = Some (a, strip l')) -> yields p None l a None l'.
Proof.
  intros HA H. exists N. intros n Hn st (P & _). specialize (H n Hn). rewrite <- P in H.
  destruct (run_acts _ _ _ _ _ (HA n) H) as (st' & R & P'). exists st'. split; [exact R|]. split; [exact P'|exact I].
Qed.
Lemma y_run {A} (p : nat -> prog A) l a o' l' : yields p None l a o' l' ->
  exists N, forall n, N <= n -> exists st', run (p n) (start l) = Ok (a, st') /\ pending st' = strip l'.
Proof.
  intros (N & H). exists N. intros n Hn. destruct (H n Hn (start l)) as (st' & R & (P & _)).
  - split; [reflexivity|exact I].
  - eauto.
Qed.
(** reading one token and pushing it back or looking at its type *)
Ltac yget := eapply y_get; [reflexivity|]; cbv beta iota.
Ltac yunget := eapply y_unget; [reflexivity|]; cbv beta iota.
Ltac ybind := eapply y_bind; [|cbv beta iota].
