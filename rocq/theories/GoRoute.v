(** Which handler of the generated Go server a request reaches. *)
From Verif Require Import GoStr Value Schema Scalars SpecTime SpecMisc SpecModel SpecPV SpecTrace SpecGo SpecGoServer SpecGoClient SpecGoCall PVFacts TraceFill.
From Coq Require Import Lia.

Lemma path_part_fun s a b : path_part s a -> path_part s b -> a = b.
Proof.
  intros [Na [Ea|(q & Ea)]] [Nb [Eb|(q' & Eb)]].
  - congruence.
  - subst s. rewrite Eb in Na. apply no_char_app in Na as [_ Na]. apply no_char_cons in Na as [C _]. now destruct C.
  - subst s. rewrite <- Eb in Nb. apply no_char_app in Nb as [_ Nb]. apply no_char_cons in Nb as [C _]. now destruct C.
  - subst s. apply (first_unique "?" a b q q' Na Nb). exact Eb.
Qed.

Lemma fits_fixed a : forall r p vs, no_char "{" a -> no_char "}" a -> (fits (a +++ r) p vs <-> exists p', p = a +++ p' /\ fits r p' vs).
Proof.
  induction a as [|c a IH]; intros r p vs N1 N2; cbn.
  - split; [intros H; exists p; auto|intros (p' & -> & H); exact H].
  - apply no_char_cons in N1 as [C1 N1]. apply no_char_cons in N2 as [C2 N2]. split.
    + intros H. inversion H as [|c' r' p' vs' X1 X2 F E1 E2|n v r' p' vs' X1 X2 X3 X4 X5 X6 F E1 E2]; subst.
      * apply IH in F as (q & -> & F); auto. exists q. auto.
      * now destruct C1.
    + intros (p' & -> & F). apply fi_char; auto. apply IH; eauto.
Qed.
Lemma fits_variable n r p vs : n <> "" -> no_char "{" n -> no_char "}" n -> no_char ":" n ->
  (fits ("{" +++ n +++ "}" +++ r) p vs <-> exists v p' vs', p = v +++ p' /\ vs = (n, v) :: vs' /\ v <> "" /\ no_char "/" v /\ fits r p' vs').
Proof.
  intros N0 N1 N2 N3. split.
  - intros H. inversion H as [|c' r' p' vs' X1 X2 F E1 E2|n' v r' p' vs' X1 X2 X3 X4 X5 X6 F E1 E2]; subst; [now destruct X1|].
    apply first_unique in E1 as [-> ->]; [|assumption..]. exists v, p', vs'. auto.
  - intros (v & p' & vs' & -> & -> & A & B & F). apply fi_var; assumption.
Qed.

Definition matches (s : segment) (t : string) : Prop := match s with Fixed a => t = a | Var _ => t <> "" /\ no_char "/" t end.
Fixpoint taken (l : list segment) (ts : list string) : list (string * string) :=
  match l, ts with
  | Var n :: l', t :: ts' => (n, t) :: taken l' ts'
  | Fixed _ :: l', _ :: ts' => taken l' ts'
  | _, _ => []
  end.
Definition path_of (ts : list string) : string := each (fun t => "/" +++ t) ts.
Lemma fits_segments l : Forall segment_ok l -> forall p vs,
  fits (segments_text l) p vs <-> exists ts, Forall2 matches l ts /\ p = path_of ts /\ vs = taken l ts.
Proof.
  induction 1 as [|s l S F IH]; intros p vs.
  - cbn. split.
    + intros H. inversion H; subst; try discriminate. exists []. repeat split. constructor.
    + intros (ts & M & -> & ->). inversion M; subst. constructor.
  - assert (E : segments_text (s :: l) = "/" +++ segment_text s +++ segments_text l) by (cbn; now rewrite <- ?append_assoc). rewrite E.
    assert (NS1 : no_char "{" "/") by (apply no_char_smem; reflexivity). assert (NS2 : no_char "}" "/") by (apply no_char_smem; reflexivity).
    rewrite (fits_fixed "/" _ p vs NS1 NS2). destruct s as [a|n]; cbn [segment_text].
    + destruct S as (A1 & A2 & A3). split.
      * intros (p1 & -> & H). apply fits_fixed in H as (p2 & -> & H); [|assumption..]. apply IH in H as (ts & M & -> & ->).
        exists (a :: ts). split; [constructor; [reflexivity|exact M]|]. split; [|reflexivity]. cbn. reflexivity.
      * intros (ts & M & -> & ->). inversion M as [|s t l' ts' M1 M2]; subst. cbn in M1. subst t. exists (a +++ path_of ts'). split; [cbn; reflexivity|].
        apply fits_fixed; [assumption..|]. exists (path_of ts'). split; [reflexivity|]. apply IH. exists ts'. auto.
    + destruct S as (A0 & A1 & A2 & A3 & A4). rewrite !append_assoc. split.
      * intros (p1 & -> & H). apply fits_variable in H as (v & p' & vs' & -> & -> & V1 & V2 & H); [|assumption..]. apply IH in H as (ts & M & -> & ->).
        exists (v :: ts). split; [constructor; [split; assumption|exact M]|]. split; reflexivity.
      * intros (ts & M & -> & ->). inversion M as [|s t l' ts' M1 M2]; subst. destruct M1 as [M1 M1']. exists (t +++ path_of ts'). split; [reflexivity|].
        apply fits_variable; [assumption..|]. exists t, (path_of ts'), (taken l ts'). repeat split; auto. apply IH. exists ts'. auto.
Qed.
Lemma taken_names l ts : Forall2 matches l ts -> map fst (taken l ts) = vars_of l.
Proof. induction 1 as [|s t l ts M F IH]; [reflexivity|]. destruct s; cbn; [exact IH|]. now rewrite IH. Qed.
Lemma path_of_inj ts : forall us, Forall (no_char "/") ts -> Forall (no_char "/") us -> path_of ts = path_of us -> ts = us.
Proof.
  induction ts as [|t ts IH]; intros [|u us] A B E; try (cbn in E; discriminate); [reflexivity|].
  assert (E0 : t +++ path_of ts = u +++ path_of us) by (injection E as E; exact E). clear E. rename E0 into E.
  inversion A as [|? ? A1 A2]; inversion B as [|? ? B1 B2]; subst.
  assert (X : forall l, path_of l = "" \/ exists r, path_of l = String "/" r) by (intros [|y l]; cbn; eauto).
  assert (t = u /\ path_of ts = path_of us) as [-> E'].
  { destruct (X ts) as [Y|[r Y]], (X us) as [Z|[r' Z]]; rewrite Y, Z in E |- *; rewrite ?append_nil_r in E.
    - auto.
    - subst t. apply no_char_app in A1 as [_ A1]. apply no_char_cons in A1 as [C _]. now destruct C.
    - subst u. apply no_char_app in B1 as [_ B1]. apply no_char_cons in B1 as [C _]. now destruct C.
    - apply first_unique in E as [-> ->]; auto. }
  f_equal. apply IH; assumption.
Qed.
Lemma matches_plain l ts : Forall segment_ok l -> Forall2 matches l ts -> Forall (no_char "/") ts.
Proof.
  intros S M. induction M as [|s t l ts M F IH]; [constructor|]. inversion S as [|? ? S1 S2]; subst. constructor; [|auto].
  destruct s; cbn in M; [subst; apply S1|apply M].
Qed.
Lemma accepted_segments l : Forall segment_ok l -> NoDup (vars_of l) -> forall p,
  (exists vs, accepted (segments_text l) p vs) <-> exists ts, Forall2 matches l ts /\ p = path_of ts.
Proof.
  intros S N p. split.
  - intros (vs & F & _). apply (fits_segments l S) in F as (ts & M & E & _). eauto.
  - intros (ts & M & E). exists (taken l ts). split; [apply (fits_segments l S); eauto|]. rewrite (taken_names l ts M). exact N.
Qed.
Lemma overlap_iff l m : Forall segment_ok l -> Forall segment_ok m ->
  (overlap l m <-> exists ts, Forall2 matches l ts /\ Forall2 matches m ts).
Proof.
  intros S T. split.
  - intros O. induction O as [|s t l m M O IH]; [exists []; split; constructor|]. inversion S as [|? ? S1 S2]; inversion T as [|? ? T1 T2]; subst.
    destruct (IH S2 T2) as (ts & A & B). assert (X : exists u, matches s u /\ matches t u).
    { destruct s as [a|n], t as [b|n']; cbn in *.
      - exists a. auto.
      - exists a. repeat split; [exact M|apply S1].
      - exists b. repeat split; [exact M|apply T1].
      - exists "x". repeat split; try discriminate; apply no_char_smem; reflexivity. }
    destruct X as (u & X & Y). exists (u :: ts). split; constructor; assumption.
  - intros (ts & A & B). revert m T B. induction A as [|s t l ts M A IH]; intros m T B; inversion B as [|s' t' m' ts' M' B']; subst; [constructor|].
    inversion S as [|? ? S1 S2]; inversion T as [|? ? T1 T2]; subst. constructor; [|apply IH; assumption].
    destruct s, s'; cbn in *; subst; intuition congruence.
Qed.

Lemma Forall2_nth {A B} (R : A -> B -> Prop) l m : Forall2 R l m -> forall i x, nth_error l i = Some x -> exists y, nth_error m i = Some y /\ R x y.
Proof. induction 1 as [|a b l m H F IH]; intros [|i] x E; cbn in *; try discriminate; [injection E as <-; eauto|auto]. Qed.
Lemma Forall2_nth_r {A B} (R : A -> B -> Prop) l m : Forall2 R l m -> forall i y, nth_error m i = Some y -> exists x, nth_error l i = Some x /\ R x y.
Proof. induction 1 as [|a b l m H F IH]; intros [|i] x E; cbn in *; try discriminate; [injection E as <-; eauto|auto]. Qed.

Definition routed (h : httpdef) (k : handler) : Prop := hd_method k = h_method h /\ path_part (h_path h) (hd_route k).
Lemma routed_shown sprint instant stamp sch rt h k : handler_shown sprint instant stamp sch rt h k -> routed h k.
Proof. intros (x & _ & _ & _ & M & P & _). split; assumption. Qed.
Lemma own_requests hs ks : Forall2 routed hs ks -> (forall h, In h hs -> exists l, segmented h l) ->
  forall i h l, nth_error hs i = Some h -> segmented h l ->
  ((forall path vs, accepted (segments_text l) path vs -> reaches ks (h_method h) path i)
   <-> forall j h' l', j < i -> nth_error hs j = Some h' -> h_method h' = h_method h -> segmented h' l' -> ~ overlap l' l).
Proof.
  intros F G i h l HI (P & S & N). destruct (Forall2_nth _ _ _ F i h HI) as (k & KI & KM & KP). assert (KR : hd_route k = segments_text l) by (eapply path_part_fun; eassumption). split.
  - intros R j h' l' J HJ M (P' & S' & N') O. apply (overlap_iff l' l S' S) in O as (ts & A & B).
    destruct (proj2 (accepted_segments l S N (path_of ts)) (ex_intro _ ts (conj B eq_refl))) as (vs & V).
    destruct (R _ _ V) as (k0 & vs0 & K0 & _ & _ & E). destruct (Forall2_nth _ _ _ F j h' HJ) as (k' & KJ & KM' & KP').
    assert (KR' : hd_route k' = segments_text l') by (eapply path_part_fun; eassumption).
    destruct (proj2 (accepted_segments l' S' N' (path_of ts)) (ex_intro _ ts (conj A eq_refl))) as (vs' & V').
    apply (E j k' vs' J KJ); [congruence|rewrite KR'; exact V'].
  - intros O path vs V. exists k, vs. split; [exact KI|]. split; [exact KM|]. split; [rewrite KR; exact V|].
    intros j k' vs' J KJ M' V'. destruct (Forall2_nth_r _ _ _ F j k' KJ) as (h' & HJ & KM' & KP').
    destruct (G h' (nth_error_In _ _ HJ)) as (l' & P' & S' & N'). assert (KR' : hd_route k' = segments_text l') by (eapply path_part_fun; eassumption).
    apply (O j h' l' J HJ); [congruence|split; auto|]. apply (overlap_iff l' l S' S). rewrite KR' in V'.
    destruct (proj1 (accepted_segments l S N path) (ex_intro _ vs V)) as (ts & A & E). destruct (proj1 (accepted_segments l' S' N' path) (ex_intro _ vs' V')) as (us & B & E').
    exists us. split; [exact B|]. assert (ts = us) as <-; [|exact A]. apply path_of_inj; [exact (matches_plain l ts S A)|exact (matches_plain l' us S' B)|congruence].
Qed.
