(** What a parser program can return, whatever it is given to read. *)
From Verif Require Import GoStr Outcome Value Scan ScanFacts ParserTerm ReadFacts.

Section G.
Variable T : token -> Prop.
Fixpoint gives {A} (p : prog A) (P : A -> Prop) : Prop :=
  match p with
  | Ret a => P a
  | Fail _ | Crash | Spin => True
  | Get k => (forall t, T t -> gives (k (Some t)) P) /\ gives (k None) P
  | Unget k => gives k P
  end.
Lemma gives_run {A} (p : prog A) : forall st (P : A -> Prop) a st', all_tokens T st ->
  gives p P -> run p st = Ok (a, st') -> P a.
Proof.
  induction p as [b|e| | |k IH|p IH]; intros st P a st' HT H R; simpl in *; try discriminate.
  - injection R as <- _. exact H.
  - pose proof (get_all T st HT) as (G1 & G2).
    destruct (get_token st) as [[t|] s1]; simpl in *; destruct H as (H1 & H2).
    + exact (IH (Some t) s1 P a st' G1 (H1 t (G2 t eq_refl)) R).
    + exact (IH None s1 P a st' G1 H2 R).
  - exact (IH _ P a st' (unget_all _ _ HT) H R).
Qed.
Lemma gives_bind {A B} (p : prog A) (f : A -> prog B) P :
  gives p (fun a => gives (f a) P) -> gives (bind p f) P.
Proof.
  induction p as [b|e| | |k IH|p IH]; unfold bind; fold (@bind A B); simpl; auto.
  intros (H1 & H2). split; auto.
Qed.
Lemma gives_mono {A} (p : prog A) (P Q : A -> Prop) : gives p P -> (forall a, P a -> Q a) -> gives p Q.
Proof.
  intros H HP. induction p as [b|e| | |k IH|p IH]; simpl in *; auto.
  destruct H as (H1 & H2). split; auto.
Qed.
Lemma gives_loop {S A} (I : S -> Prop) (P : A -> Prop) (body : S -> prog (S + A)) :
  (forall s, I s -> gives (body s) (fun r => match r with inl s' => I s' | inr a => P a end)) ->
  forall n s, I s -> gives (loop n body s) P.
Proof.
  intros Hb. induction n as [|n IH]; intros s Hs; unfold loop; [exact Logic.I|]; fold (@loop S A).
  apply gives_bind. eapply gives_mono; [apply Hb, Hs|]. intros [s'|a] H; [apply IH, H|exact H].
Qed.
Lemma gives_get {A} (k : option token -> prog A) P :
  (forall t, T t -> gives (k (Some t)) P) -> gives (k None) P -> gives (Get k) P.
Proof. simpl. auto. Qed.
Lemma gives_try {A} (p : prog A) P : gives p (fun a => P (Some a)) -> P None -> gives (try p) P.
Proof.
  intros H Hn. induction p as [b|e| | |k IH|p IH]; unfold try; fold (@try A); simpl in *; auto.
  destruct H as (H1 & H2). split; auto.
Qed.
End G.
Arguments gives : simpl never.
