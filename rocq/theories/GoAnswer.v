(** What the generated Go client makes of the answers of the generated Go server. *)
From Verif Require Import GoStr Outcome Value Schema Scalars Model SpecTime SpecMisc SpecModel SpecPV SpecTrace SpecGo SpecGoServer SpecGoClient SpecGoCall
  ModelFacts TimeFacts PVFacts TraceFacts TraceFill GoModelFacts GoServerFacts GoRoute GoReceive.
From Coq Require Import Lia.

Section ANSWER.
Context (sch : schema) (m : model) (Hm : new_model sch = Ok m) (rt : bool)
  (sprint : value -> string) (instant : string -> timestamp -> Prop) (stamp : timestamp -> string -> Prop).
Lemma go_name_fun n s s' : go_name sch rt n s -> go_name sch rt n s' -> s = s'.
Proof.
  intros [[N ->]|(ts & t & D & U & ->)] [[N' ->]|(ts' & t' & D' & U' & ->)]; [reflexivity|destruct N; exists ts'; exact D'|destruct N'; exists ts; exact D|].
  assert (ts' = ts) as -> by (eapply defines_fun; [exact Hm|exact D'|exact D]). f_equal. eapply use_fun; eassumption.
Qed.
Lemma Forall2_split {A B} (R : A -> B -> Prop) l m' x r : Forall2 R l (m' ++ x :: r) -> exists a e b, l = a ++ e :: b /\ Forall2 R a m' /\ R e x /\ Forall2 R b r.
Proof.
  revert l. induction m' as [|y m' IH]; intros l F; cbn in F; inversion F as [|e y' l' m2 H F']; subst.
  - exists [], e, l'. repeat split; auto.
  - destruct (IH l' F') as (a & e' & b & -> & Fa & He & Fb). exists (e :: a), e', b. repeat split; auto.
Qed.
Lemma Forall2_split_l {A B} (R : A -> B -> Prop) a e b m' : Forall2 R (a ++ e :: b) m' -> exists a' x b', m' = a' ++ x :: b' /\ Forall2 R a a' /\ R e x /\ Forall2 R b b'.
Proof.
  revert m'. induction a as [|y a IH]; intros m' F; cbn in F; inversion F as [|y' x l' m2 H F']; subst.
  - exists [], x, m2. repeat split; auto.
  - destruct (IH m2 F') as (a' & x' & b' & -> & Fa & He & Fb). exists (x :: a'), x', b'. repeat split; auto.
Qed.
Lemma Forall2_In_r {A B} (R : A -> B -> Prop) l m' y : Forall2 R l m' -> In y m' -> exists x, In x l /\ R x y.
Proof. induction 1 as [|a b l m' H F IH]; intros I; [destruct I|]. destruct I as [<- |I]; [exists a; cbn; auto|]. destruct (IH I) as (x & J & X). exists x. cbn. auto. Qed.
Lemma NoDup_elt {A} (a : list A) x b : NoDup (a ++ x :: b) -> ~ In x a.
Proof. intros N I. apply NoDup_remove_2 in N. apply N. apply in_or_app. auto. Qed.

Lemma errors_understood h k c : handler_shown sprint instant stamp sch rt h k -> method_shown sch rt h c -> NoDup (statuses h) ->
  forall t z, In t (map fst (hd_exceptions k)) -> answered k t z -> forall o, understood c z o <-> o = Raised t.
Proof.
  intros (x & X & _ & _ & _ & _ & _ & _ & NS & _ & _ & FK) (x' & X' & _ & _ & _ & _ & _ & NC & _ & FC) ND t z IT [(a & s & b & E & NF & NU)|[NI _]] o; [|contradiction].
  assert (x' = x) as -> by congruence. unfold statuses in ND. rewrite X in ND. cbn [app] in ND.
  rewrite E in FK. apply Forall2_split in FK as (ea & e & eb & EE & Fa & [G NE] & Fb). cbn [fst snd] in *.
  assert (z = xc_status e) as -> by (eapply numeral_fun; eassumption). rewrite EE in FC. apply Forall2_split_l in FC as (a' & [t' s'] & b' & EC & Fa' & [G' NE'] & Fb').
  cbn [fst snd] in *. assert (t' = t) as -> by (eapply go_name_fun; eassumption). rewrite EE, map_app in ND. cbn [map] in ND. inversion ND as [|? ? N1 N2]; subst.
  assert (NZ : ~ numeral (cm_status c) (xc_status e)).
  { intros Y. apply N1. rewrite <- (numeral_fun _ _ _ Y NC). apply in_elt. }
  assert (EAR : forall t1 s1, In (t1, s1) a' -> ~ numeral s1 (xc_status e)).
  { intros t1 s1 I Y. destruct (Forall2_In_r _ _ _ _ Fa' I) as (e1 & I1 & _ & Y1). cbn in Y1. apply (NoDup_elt _ _ _ N2). apply in_map_iff. exists e1. split; [|exact I1].
    eapply numeral_fun; eassumption. }
  split.
  - intros [[Y _]|[_ [(a2 & t2 & s2 & b2 & E2 & Y & EAR2 & ->)|[Y _]]]].
    + contradiction.
    + f_equal. rewrite EC in E2. clear -E2 Y EAR EAR2 NE'. revert a2 E2 EAR2. induction a' as [|[u w] a' IH]; intros [|[u2 w2] a2] E2 EAR2; cbn in E2.
      * congruence.
      * assert (u2 = t /\ w2 = s') as [-> ->] by (split; congruence). destruct (EAR2 t s'); [left; reflexivity|exact NE'].
      * assert (u = t2 /\ w = s2) as [-> ->] by (split; congruence). destruct (EAR t2 s2); [left; reflexivity|exact Y].
      * apply (IH (fun t1 s1 I => EAR t1 s1 (or_intror I)) a2); [congruence|]. intros t1 s1 I. apply (EAR2 t1 s1). right. exact I.
    + destruct (Y t s'); [rewrite EC; apply in_elt|exact NE'].
  - intros ->. right. split; [exact NZ|]. left. exists a', t, s', b'. auto.
Qed.
Lemma others_unknown h k c : handler_shown sprint instant stamp sch rt h k -> method_shown sch rt h c -> ~ In 500%Z (statuses h) ->
  forall t z, ~ In t (map fst (hd_exceptions k)) -> answered k t z -> forall o, understood c z o <-> o = Unknown.
Proof.
  intros (x & X & _) (x' & X' & _ & _ & _ & _ & _ & NC & _ & FC) N5 t z NI [(a & s & b & E & _)|[_ ->]] o.
  { destruct NI. rewrite E, map_app. cbn. apply in_elt. }
  assert (x' = x) as -> by congruence. unfold statuses in N5. rewrite X in N5. cbn [app In] in N5.
  assert (NZ : ~ numeral (cm_status c) 500) by (intros Y; apply N5; left; eapply numeral_fun; eassumption).
  assert (NX : forall t s, In (t, s) (cm_exceptions c) -> ~ numeral s 500).
  { intros t1 s1 I Y. destruct (Forall2_In_r _ _ _ _ FC I) as (e & J & _ & Y'). apply N5. right. apply in_map_iff. exists e. split; [|exact J]. eapply numeral_fun; eassumption. }
  split.
  - intros [[Y _]|[_ [(a2 & t2 & s2 & b2 & E2 & Y & _)|[_ ->]]]]; [contradiction| |reflexivity]. destruct (NX t2 s2); [rewrite E2; apply in_elt|exact Y].
  - intros ->. right. split; [exact NZ|]. right. auto.
Qed.
Lemma success_understood h k c x : handler_shown sprint instant stamp sch rt h k -> method_shown sch rt h c -> h_expected h = Some x ->
  numeral (hd_status k) (xp_status x) /\ forall o, understood c (xp_status x) o <-> o = Good.
Proof.
  intros (x1 & X1 & _ & _ & _ & _ & _ & _ & NS & _) (x2 & X2 & _ & _ & _ & _ & _ & NC & _) X. assert (x1 = x) as -> by congruence. assert (x2 = x) as -> by congruence.
  split; [exact NS|]. intros o. split; [intros [[_ Y]|[Y _]]; [exact Y|contradiction]|]. intros ->. left. auto.
Qed.
Lemma Forall2_map_l {A B C} (R : B -> C -> Prop) (f : A -> B) l m' : Forall2 (fun a c => R (f a) c) l m' -> Forall2 R (map f l) m'.
Proof. induction 1; constructor; assumption. Qed.
Lemma cases_iff h c : method_shown sch rt h c -> (cases_ok c <-> NoDup (statuses h)).
Proof.
  intros (x & X & _ & _ & _ & _ & _ & NC & _ & FC). unfold cases_ok, statuses. rewrite X. cbn [app].
  assert (F : Forall2 (fun z s => numeral s z) (xp_status x :: map xc_status (h_exceptions h)) (cm_status c :: map snd (cm_exceptions c))).
  { constructor; [exact NC|]. clear -FC. induction FC as [|e ts l m' [_ H] F IH]; constructor; assumption. }
  revert F. generalize (xp_status x :: map xc_status (h_exceptions h)) (cm_status c :: map snd (cm_exceptions c)). clear. intros zs ss F. split.
  - intros H. induction F as [|z s zs ss N F IH]; [constructor|]. constructor.
    + intros I. apply in_split in I as (a & b & ->). apply Forall2_split_l in F as (a' & s' & b' & -> & _ & N' & _). exact (H [] s a' s' b' eq_refl z N N').
    + apply IH. intros a s1 b t d E. apply (H (s :: a) s1 b t d). cbn. congruence.
  - intros ND a s b t d -> z N N'. apply Forall2_split in F as (za & z1 & zb & -> & _ & Z1 & F). apply Forall2_split in F as (zb' & z2 & zd & -> & _ & Z2 & _).
    assert (z1 = z2) by (rewrite <- (numeral_fun _ _ _ N Z1), <- (numeral_fun _ _ _ N' Z2); reflexivity). subst z2.
    apply NoDup_remove_2 in ND. apply ND. apply in_or_app. right. apply in_elt.
Qed.
End ANSWER.
