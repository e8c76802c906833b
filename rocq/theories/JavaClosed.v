(** Every generated file mentions only what Java finds: the classes of a model and the helper files are there for each other. *)
From Verif Require Import GoStr Value Schema SpecTime SpecMisc SpecModel SpecPV SpecTrace SpecGo SpecGen SpecJava SpecJavaNames TraceFacts JavaFacts JavaAsks JavaNames.

Lemma large_first_fun n s t : large_first n s -> large_first n t -> s = t.
Proof. intros A B. apply large_first_iff in A, B. congruence. Qed.

Section CLOSED.
Context (sch : schema) (inst lombok immutable pretty service : bool).
Notation uasks := (use_asks sch inst).
Notation sasks := (struct_asks sch inst lombok immutable pretty).
Notation casks := (class_asks sch inst lombok immutable pretty).

(** ** With instants nothing asks for the class of timestamps *)
Lemma stamp_no q : inst = true -> stamp_asks inst q -> q <> Stamp.
Proof. intros -> H ->. cbn in H. unfold databind in H. intuition discriminate. Qed.
Lemma use_no ts n r q : inst = true -> uasks ts n r q -> q <> Stamp.
Proof. intros I H. induction H; try (unfold constraint; discriminate); try assumption. now apply stamp_no. Qed.
Ltac no_stamp := cbn; unfold annotation, databind, constraint; intuition (subst; discriminate).
Lemma struct_no fs top thrown q : inst = true -> sasks fs top thrown q -> q <> Stamp.
Proof.
  intros I H. induction H as [| |fs top thrown q _ J| |fs q _ J| |fs top thrown f q _ J| |]; try (unfold annotation, constraint; discriminate); try assumption.
  - revert J. no_stamp.
  - revert J. no_stamp.
  - exact (use_no _ _ _ _ I J).
Qed.
Lemma class_no thrown ts q : inst = true -> casks thrown ts q -> q <> Stamp.
Proof.
  intros I H. destruct H as [q _ J|q _ J|q _ J|q _ _ J|v q _ _ J| |s c q _ _ J|q _ J|q _ J|q _ J]; try (exact (struct_no _ _ _ _ I J)); try (exact (use_no _ _ _ _ I J)); try (revert J; no_stamp).
  discriminate.
Qed.

Context (comment : string -> Z -> string -> string) (quote : string -> string) (dec_text : decimal -> string) (int_text : Z -> string).
Context (header package model_package name : string) (stamp_text helper_text error_text : string).
Notation shown := (shown_file comment quote dec_text int_text lombok immutable pretty header model_package).
Notation tasks := (type_asks lombok immutable pretty inst sch).
Notation tfiles := (types_files comment quote dec_text int_text lombok immutable pretty inst header model_package sch).
Notation pasks := (params_ask lombok immutable pretty inst sch).
Notation afiles := (actions_files comment quote dec_text int_text lombok immutable pretty inst header model_package sch).
Notation aasks := (action_asks lombok immutable pretty inst sch).

(** ** What the files are about *)
Lemma types_each thrown l : forall before fs, tfiles thrown before l fs -> forall f, In f fs ->
  exists td n k (asked : request -> Prop), In td l /\ large_first (td_name td) n /\ class_shown sch inst lombok thrown (td_spec td) n k
    /\ (forall q, tasks thrown td q -> asked q) /\ shown asked n (td_comment td) k f.
Proof.
  induction l as [|td l IH]; intros before fs H f I; inversion H as [|b td' l' g gs W T R|b td' l' gs N W R]; subst; [destruct I| |].
  - destruct I as [<- |I].
    + destruct T as (n & k & _ & L & C & S). exists td, n, k, (both before (tasks thrown td)). split; [now left|]. split; [exact L|]. split; [exact C|]. split; [|exact S]. intros q Q. now right.
    + destruct (IH _ _ R f I) as (td' & n & k & a & J & X). exists td', n, k, a. split; [now right|exact X].
  - destruct (IH _ _ R f I) as (td' & n & k & a & J & X). exists td', n, k, a. split; [now right|exact X].
Qed.
Lemma types_have thrown l : forall before fs, tfiles thrown before l fs -> forall td, In td l -> with_class (td_spec td) ->
  exists n s, large_first (td_name td) n /\ In (model_package, n, s) fs.
Proof.
  induction l as [|td l IH]; intros before fs H td' I W'; inversion H as [|b td'' l' g gs W T R|b td'' l' gs N W R]; subst; [destruct I| |].
  - destruct I as [<- |I].
    + destruct T as (n & k & _ & L & _ & imports & _ & _ & ->). eexists n, _. split; [exact L|now left].
    + destruct (IH _ _ R _ I W') as (n & s & L & J). exists n, s. split; [exact L|now right].
  - destruct I as [<- |I]; [contradiction|]. exact (IH _ _ R _ I W').
Qed.
Lemma actions_each l : forall before acs fs, afiles before l acs fs -> forall f, In f fs ->
  exists h ps n k (asked : request -> Prop), In h l /\ (ps = h_inputs h \/ exists x, h_expected h = Some x /\ ps = xp_outputs x)
    /\ struct_shown sch inst lombok (map ps_field ps) n false k /\ (forall q, pasks ps q -> asked q) /\ shown asked n "" k f.
Proof.
  induction l as [|h l IH]; intros before acs fs H f I; inversion H as [|b h' l' ac acs' g gs A R]; subst; [destruct I|]. apply in_app_or in I as [I|I].
  - destruct A as (_ & x & f1 & f2 & X & -> & (k1 & S1 & D1) & (k2 & S2 & D2) & _). destruct I as [<- |[<- |[]]].
    + eexists h, (h_inputs h), _, k1, _. split; [now left|]. split; [now left|]. split; [exact S1|]. split; [|exact D1]. intros q Q. now right.
    + eexists h, (xp_outputs x), _, k2, _. split; [now left|]. split; [right; eauto|]. split; [exact S2|]. split; [|exact D2]. intros q Q. now right.
  - destruct (IH _ _ _ R f I) as (h' & ps & n & k & a & J & X). exists h', ps, n, k, a. split; [now right|exact X].
Qed.
Lemma actions_have l : forall before acs fs, afiles before l acs fs -> forall ac, In ac acs ->
  exists s s', In (model_package, snd ac +++ "Request", s) fs /\ In (model_package, snd ac +++ "Response", s') fs.
Proof.
  induction l as [|h l IH]; intros before acs fs H ac I; inversion H as [|b h' l' ac' acs' g gs A R]; subst; [destruct I|]. destruct I as [-> |I].
  - destruct A as (_ & x & f1 & f2 & X & -> & (k1 & S1 & i1 & _ & _ & ->) & (k2 & S2 & i2 & _ & _ & ->) & _). eexists _, _. split; apply in_or_app; left; [left; reflexivity|right; left; reflexivity].
  - destruct (IH _ _ _ R ac I) as (s & s' & J & J'). exists s, s'. split; apply in_or_app; now right.
Qed.
Lemma sibling n s fs : In (model_package, n, s) fs -> In n (siblings model_package fs).
Proof. intros I. unfold siblings. apply in_map_iff. exists (model_package, n, s). split; [reflexivity|]. apply filter_In. split; [exact I|]. cbn [fst]. destruct (string_dec model_package model_package) as [_|N]; [reflexivity|destruct (N eq_refl)]. Qed.

(** ** All of them *)
Lemma shown_closed fs (Q asked : request -> Prop) n c k f : (forall x, In x (mentioned lombok immutable pretty true k) -> excused k x \/ origin sch Q x) ->
  (forall q, Q q -> asked q) -> (Q Helper -> In "Util" (siblings model_package fs)) -> (Q Stamp -> In "Timestamp" (siblings model_package fs)) ->
  (forall td, In td (sc_types sch) -> with_class (td_spec td) -> In (td_name td) (siblings model_package fs)) -> shown asked n c k f ->
  closed_file comment quote dec_text int_text lombok immutable pretty header model_package name stamp_text helper_text error_text excused (siblings model_package fs) f.
Proof.
  intros M A H S D (imports & _ & Im & ->). apply cf_class. intros x I. destruct (M x I) as [E|O]; [now right|left]. unfold found.
  destruct O as [O|[(p & O)|[[-> O]|[[-> O]|(td & T & <- & W)]]]]; [now left|right; right; exists p; apply Im, A, O|right; left; auto|right; left; auto|right; left; now apply D].
Qed.
Theorem files_closed fs : types_usable sch -> members_usable sch -> inst = true \/ package = model_package ->
  java_files comment quote dec_text int_text lombok immutable pretty inst service header package model_package name sch stamp_text helper_text error_text fs ->
  forall f, In f fs -> closed_file comment quote dec_text int_text lombok immutable pretty header model_package name stamp_text helper_text error_text excused (siblings model_package fs) f.
Proof.
  intros TU MU IP (thrown & stamp & helper & ts & is & Th & _ & T & I & R) f Hf. cbv zeta in R.
  pose (asked q := exceptions_ask inst service sch q \/ types_ask lombok immutable pretty inst sch thrown (sc_types sch) q \/ name <> "" /\ actions_ask lombok immutable pretty inst sch (sc_http sch) q).
  change ((stamp = true <-> asked Stamp) /\ (helper = true <-> asked Helper)
    /\ fs = ts ++ is ++ fixed_file header stamp package "Timestamp" stamp_text ++ fixed_file header helper model_package "Util" helper_text ++ fixed_file header service model_package "ServiceException" error_text) in R.
  destruct R as (St & He & E).
  assert (Sib : forall n s, In (model_package, n, s) (ts ++ is) -> In n (siblings model_package fs)).
  { intros n s J. apply (sibling n s). rewrite E, app_assoc. apply in_or_app. now left. }
  assert (Ut : asked Helper -> In "Util" (siblings model_package fs)).
  { intros A. apply He in A. apply (sibling "Util" (java_text header model_package helper_text)). rewrite E, A. cbn [fixed_file]. apply in_or_app; right. apply in_or_app; right. apply in_or_app; right. now left. }
  assert (Tm : forall Q : request -> Prop, (forall q, Q q -> asked q) -> (inst = true -> forall q, Q q -> q <> Stamp) -> Q Stamp -> In "Timestamp" (siblings model_package fs)).
  { intros Q Qa No A. destruct IP as [IP|IP]; [destruct (No IP _ A eq_refl)|]. apply Qa, St in A.
    apply (sibling "Timestamp" (java_text header package stamp_text)). rewrite E, A, <- IP. cbn [fixed_file]. apply in_or_app; right. apply in_or_app; right. now left. }
  assert (Dc : forall td, In td (sc_types sch) -> with_class (td_spec td) -> In (td_name td) (siblings model_package fs)).
  { intros td J W. destruct (types_have _ _ _ _ T td J W) as (n & s & L & K). destruct (TU td J) as [L' _]. rewrite (large_first_fun _ _ _ L' L). apply (Sib n s). apply in_or_app. now left. }
  rewrite E in Hf. apply in_app_or in Hf as [Hf|Hf]; [|apply in_app_or in Hf as [Hf|Hf]].
  - destruct (types_each _ _ _ _ T f Hf) as (td & n & k & a & Jt & L & C & Qa & Sh).
    assert (Ta : forall q, tasks thrown td q -> asked q) by (intros q Q; right; left; exists td; auto).
    destruct (TU td Jt) as (_ & _ & _ & TUu).
    apply (shown_closed fs (tasks thrown td) a n (td_comment td) k f); [|exact Qa|intros Q; apply Ut, Ta, Q| |exact Dc|exact Sh].
    + intros x Ix. destruct (class_names sch inst TU lombok immutable pretty thrown (td_spec td) n k C) with (x := x) as [X|X]; [| | |exact Ix|now left|].
      * intros g Ts Ig. apply (MU (fd_name g)). eapply mo_field; eauto.
      * intros v Ts Iv. apply (MU (uv_name v)). eapply mo_variant; eauto.
      * exact TUu.
      * right. revert X. apply origin_mono. intros q Q. exists n. auto.
    + apply (Tm _ Ta). intros In1 q (n' & _ & Q). exact (class_no _ _ _ In1 Q).
  - destruct I as [[-> ->]|(Nn & acs & gs & A & ->)]; [destruct Hf|]. destruct Hf as [<- |Hf].
    + apply cf_interface. intros ac J. destruct (actions_have _ _ _ _ A ac J) as (s & s' & X & Y).
      split; [apply (Sib _ s)|apply (Sib _ s')]; apply in_or_app; right; right; assumption.
    + destruct (actions_each _ _ _ _ A f Hf) as (h & ps & n & k & a & Jh & Ps & C & Qa & Sh).
      assert (Ta : forall q, pasks ps q -> asked q).
      { intros q Q. right. right. split; [exact Nn|]. exists h. split; [exact Jh|]. destruct Ps as [-> |(x & X & ->)]; [left; exact Q|right; exists x; auto]. }
      apply (shown_closed fs (pasks ps) a n "" k f); [|exact Qa|intros Q; apply Ut, Ta, Q| |exact Dc|exact Sh].
      * intros x Ix. destruct (struct_names sch inst TU lombok immutable pretty _ n false k C) with (x := x) as [X|X]; [|exact Ix|left; now left|right; exact X].
        intros g Ig. apply in_map_iff in Ig as (p & <- & Ip). destruct Ps as [-> |(x' & X & ->)].
        -- apply (MU (fd_name (ps_field p))). eapply mo_input; eauto.
        -- apply (MU (fd_name (ps_field p))). eapply mo_output; eauto.
      * apply (Tm _ Ta). intros In1 q Q. exact (struct_no _ _ _ _ In1 Q).
  - assert (F : forall b pkg n s, In f (fixed_file header b pkg n s) -> f = (pkg, n, java_text header pkg s)) by (intros b pkg n s J; destruct b; [destruct J as [<- |[]]; reflexivity|destruct J]).
    apply in_app_or in Hf as [Hf|Hf]; [|apply in_app_or in Hf as [Hf|Hf]]; apply F in Hf as ->; apply cf_fixed; cbn; tauto.
Qed.
End CLOSED.
