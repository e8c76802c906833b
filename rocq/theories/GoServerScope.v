(** The variables of the handlers of a generated Go server. *)
From Verif Require Import GoStr Value Schema SpecTime SpecMisc SpecModel SpecPV SpecTrace SpecGo SpecGoServer.

Fixpoint after (ss : list step) (seen : list string) : list string :=
  match ss with [] => seen | Define vs :: r => after r (vs ++ seen) | Use _ :: r => after r seen end.
Lemma scoped_app a : forall seen b, scoped seen (a ++ b) <-> scoped seen a /\ scoped (after a seen) b.
Proof.
  induction a as [|[vs|v] a IH]; intros seen b; cbn [app scoped after]; [tauto|rewrite IH; tauto|rewrite IH; tauto].
Qed.
Lemma after_app a : forall seen b, after (a ++ b) seen = after b (after a seen).
Proof. induction a as [|[vs|v] a IH]; intros seen b; cbn [app after]; auto. Qed.

Definition bodies (is : list input) : nat := length (filter (fun i => negb (is_value i)) is).
Definition err_in (seen : list string) : nat := if in_dec string_dec "err" seen then 1 else 0.
Lemma inputs_scoped is : forall seen, In "req" seen -> In "r" seen -> In "w" seen ->
  (scoped seen (flat_map input_steps is) <-> err_in seen + bodies is <= 1 \/ bodies is = 0)
  /\ (forall v, In v (after (flat_map input_steps is) seen) <-> In v seen \/ (v = "err" /\ bodies is <> 0)).
Proof.
  induction is as [|[f s c|f] is IH]; intros seen A B C; cbn [flat_map input_steps].
  - cbn. split; [tauto|]. intros v. intuition congruence.
  - cbn [app scoped after]. destruct (IH seen A B C) as [I J]. unfold bodies in *. cbn [filter is_value negb length]. rewrite I. split; [|exact J].
    split; [tauto|]. intros H. repeat split; try discriminate; assumption.
  - cbn [app scoped after]. destruct (IH ("err" :: seen)) as [I J]; [right; assumption..|]. unfold bodies in *. cbn [filter is_value negb length].
    assert (E1 : err_in ("err" :: seen) = 1) by (unfold err_in; destruct (in_dec string_dec "err" ("err" :: seen)); [reflexivity|destruct n; left; reflexivity]).
    rewrite E1 in I. split.
    + rewrite I. unfold err_in. destruct (in_dec string_dec "err" seen) as [Y|N].
      * split; [intros ((v & [<- |[]] & _ & X) & _); contradiction|lia].
      * split; [lia|]. intros H. split; [exists "err"; split; [cbn; tauto|split; [discriminate|exact N]]|]. repeat (split; [discriminate|split; [cbn; tauto|]]). lia.
    + intros v. rewrite J. cbn [In]. intuition (try congruence; try lia).
Qed.
Lemma uses_scoped {A} (l : list A) v w seen : In v seen -> v <> "_" -> w <> "_" -> (scoped seen (flat_map (fun _ => [Use v; Use w]) l) <-> l = [] \/ In w seen)
  /\ after (flat_map (fun _ => [Use v; Use w]) l) seen = seen.
Proof.
  intros I N M. induction l as [|x l [IH IH']]; cbn [flat_map app scoped after]; [intuition|]. rewrite IH, IH'. split; [|reflexivity]. intuition congruence.
Qed.
Definition silent (k : handler) : Prop := hd_headers k = [] /\ hd_entity k = None.
Definition errors (k : handler) : nat := (if existsb from_query (hd_inputs k) then 1 else 0) + bodies (hd_inputs k).
Lemma variables_iff k : variables_ok k <-> errors k <= 1 /\ (hd_quiet k = true -> errors k = 0 /\ silent k) /\ (hd_quiet k = false -> ~ silent k).
Proof.
  unfold variables_ok, handler_steps. set (s0 := ["req"; "handler"; "w"; "r"]).
  set (s1 := if existsb from_query (hd_inputs k) then "err" :: s0 else s0).
  assert (S1 : In "req" s1 /\ In "r" s1 /\ In "w" s1 /\ In "handler" s1 /\ ~ In "res" s1 /\ (In "err" s1 <-> existsb from_query (hd_inputs k) = true)).
  { subst s1 s0. destruct (existsb from_query (hd_inputs k)); cbn; intuition congruence. }
  destruct S1 as (R1 & R2 & R3 & R4 & R5 & R6).
  destruct (inputs_scoped (hd_inputs k) s1 R1 R2 R3) as [I J]. set (s2 := after (flat_map input_steps (hd_inputs k)) s1) in *.
  set (q := if hd_quiet k then "_" else "res").
  set (s3 := [q; "err"] ++ s2).
  assert (T : forall v, In v s1 -> In v s3) by (intros v H; subst s3; right; right; apply J; auto).
  assert (E : scoped ["handler"; "w"; "r"] ([Define ["req"]] ++ (if existsb from_query (hd_inputs k) then checked else []) ++ flat_map input_steps (hd_inputs k)
     ++ [Define [q; "err"]; Use "handler"; Use "req"; Use "err"; Use "err"]
     ++ flat_map (fun _ => [Use "w"; Use "err"]) (hd_exceptions k) ++ [Use "w"; Use "err"]
     ++ flat_map (fun _ => [Use "w"; Use "res"]) (hd_headers k)
     ++ [Use "w"] ++ match hd_entity k with Some _ => [Use "res"] | None => [] end)
   <-> (err_in s1 + bodies (hd_inputs k) <= 1 \/ bodies (hd_inputs k) = 0) /\ (exists v, In v [q; "err"] /\ v <> "_" /\ ~ In v s2) /\ (silent k \/ In "res" s3)).
  { rewrite scoped_app. assert (X0 : scoped ["handler"; "w"; "r"] [Define ["req"]] <-> True) by (cbn; intuition; exists "req"; cbn; intuition discriminate).
    rewrite X0. change (after [Define ["req"]] ["handler"; "w"; "r"]) with s0. rewrite scoped_app.
    assert (X1 : scoped s0 (if existsb from_query (hd_inputs k) then checked else []) <-> True).
    { destruct (existsb from_query (hd_inputs k)); [|cbn; tauto]. split; [auto|]. intros _. cbn [checked scoped].
      split; [exists "err"; subst s0; cbn; intuition discriminate|]. repeat (split; [discriminate|]; split; [subst s0; cbn; tauto|]). exact Logic.I. }
    assert (X1' : after (if existsb from_query (hd_inputs k) then checked else []) s0 = s1) by (subst s1; destruct (existsb from_query (hd_inputs k)); reflexivity).
    rewrite X1, X1'. rewrite scoped_app, I. fold s2. rewrite scoped_app.
    cbn [app scoped after]. change (q :: "err" :: s2) with s3. change ([q; "err"] ++ s2) with s3.
    assert (U : forall v, v <> "_" /\ In v s1 -> (v <> "_" /\ In v s3)) by (intros v [A B]; auto).
    assert (Ue : In "err" s3) by (subst s3; cbn; tauto). assert (Uw : In "w" s3) by auto. assert (Uh : In "handler" s3) by auto. assert (Ur : In "req" s3) by auto.
    rewrite scoped_app. destruct (uses_scoped (hd_exceptions k) "w" "err" s3 Uw ltac:(discriminate) ltac:(discriminate)) as [V1 V2]. rewrite V1, V2.
    cbn [app scoped after]. rewrite scoped_app. destruct (uses_scoped (hd_headers k) "w" "res" s3 Uw ltac:(discriminate) ltac:(discriminate)) as [V3 V4]. rewrite V3, V4.
    cbn [app scoped after]. unfold silent.
    assert (Ve : scoped s3 (match hd_entity k with Some _ => [Use "res"] | None => [] end) <-> hd_entity k = None \/ In "res" s3).
    { destruct (hd_entity k); cbn [scoped]; [|tauto]. split; [tauto|]. intros [H|H]; [discriminate|]. split; [discriminate|]. split; [exact H|exact Logic.I]. }
    rewrite Ve.
    assert (D1 : "handler" <> "_") by discriminate. assert (D2 : "req" <> "_") by discriminate. assert (D3 : "err" <> "_") by discriminate. assert (D4 : "w" <> "_") by discriminate.
    clear -Ue Uw Uh Ur D1 D2 D3 D4. tauto. }
  fold q. cbn [app] in E |- *. rewrite E. clear E I.
  assert (N : err_in s1 = if existsb from_query (hd_inputs k) then 1 else 0).
  { unfold err_in. destruct (in_dec string_dec "err" s1) as [Y|Y]; [rewrite (proj1 R6 Y); reflexivity|].
    destruct (existsb from_query (hd_inputs k)); [destruct Y; apply R6; reflexivity|reflexivity]. }
  rewrite N. fold (errors k).
  assert (NR : ~ In "res" s2) by (rewrite J; intros [X|[X _]]; [exact (R5 X)|discriminate]).
  assert (NE : In "err" s2 <-> errors k <> 0).
  { rewrite J, R6. unfold errors. destruct (existsb from_query (hd_inputs k)); intuition (try congruence; try lia). }
  assert (AU : all_used (Define ["req"] :: (if existsb from_query (hd_inputs k) then checked else []) ++ flat_map input_steps (hd_inputs k)
     ++ Define [q; "err"] :: Use "handler" :: Use "req" :: Use "err" :: Use "err"
     :: flat_map (fun _ => [Use "w"; Use "err"]) (hd_exceptions k) ++ Use "w" :: Use "err"
     :: flat_map (fun _ => [Use "w"; Use "res"]) (hd_headers k)
     ++ Use "w" :: match hd_entity k with Some _ => [Use "res"] | None => [] end) <-> (q = "res" -> ~ silent k)).
  { split.
    - intros A Q S. specialize (A [q; "err"] "res"). rewrite Q in A. destruct S as [S1 S2]. rewrite S1, S2 in A. assert (Z := A ltac:(cbn; rewrite !in_app_iff; cbn; tauto) ltac:(cbn; tauto) ltac:(discriminate)).
      clear -Z. cbn in Z. rewrite !in_app_iff in Z. destruct Z as [Z|[Z|[Z|Z]]]; [discriminate| | |].
      + destruct (existsb from_query (hd_inputs k)); [|destruct Z]. cbn in Z. intuition discriminate.
      + apply in_flat_map in Z as (i & _ & Z). destruct i; cbn in Z; intuition discriminate.
      + cbn in Z. repeat (destruct Z as [Z|Z]; [discriminate|]). rewrite in_app_iff in Z. destruct Z as [Z|Z].
        * apply in_flat_map in Z as (i & _ & Z). cbn in Z. intuition discriminate.
        * cbn in Z. intuition discriminate.
    - intros H vs v Iv Jv Nv.
      assert (Big : forall x, In x ["req"; "err"] -> In (Use x) (Define ["req"] :: (if existsb from_query (hd_inputs k) then checked else []) ++ flat_map input_steps (hd_inputs k)
     ++ Define [q; "err"] :: Use "handler" :: Use "req" :: Use "err" :: Use "err"
     :: flat_map (fun _ => [Use "w"; Use "err"]) (hd_exceptions k) ++ Use "w" :: Use "err"
     :: flat_map (fun _ => [Use "w"; Use "res"]) (hd_headers k)
     ++ Use "w" :: match hd_entity k with Some _ => [Use "res"] | None => [] end)).
      { intros x [<- |[<- |[]]]; cbn; right; rewrite !in_app_iff; right; right; cbn; tauto. }
      cbn [In] in Iv. rewrite !in_app_iff in Iv. destruct Iv as [Iv|[Iv|[Iv|Iv]]].
      + assert (vs = ["req"]) as -> by congruence. destruct Jv as [<- |[]]. apply Big. cbn; tauto.
      + destruct (existsb from_query (hd_inputs k)); [|destruct Iv]. cbn in Iv. repeat (destruct Iv as [Iv|Iv]; [try discriminate; assert (vs = ["err"]) as -> by congruence; destruct Jv as [<- |[]]; apply Big; cbn; tauto|]). destruct Iv.
      + apply in_flat_map in Iv as (i & _ & Iv). destruct i; cbn in Iv;
          repeat (destruct Iv as [Iv|Iv]; [try discriminate; assert (vs = ["err"]) as -> by congruence; destruct Jv as [<- |[]]; apply Big; cbn; tauto|]); destruct Iv.
      + cbn [In] in Iv. rewrite in_app_iff in Iv. destruct Iv as [Iv|Iv].
        * assert (vs = [q; "err"]) as -> by congruence. destruct Jv as [<- |[<- |[]]]; [|apply Big; cbn; tauto].
          assert (Q : q = "res") by (subst q; destruct (hd_quiet k); congruence). specialize (H Q). rewrite Q. cbn [In]. right. rewrite !in_app_iff. right; right. cbn [In]. rewrite in_app_iff.
          do 5 right. right. cbn [In]. right; right. rewrite in_app_iff. cbn [In].
          destruct (hd_headers k) as [|x l] eqn:Eh; [|left; cbn; tauto]. destruct (hd_entity k) eqn:Ee; [right; right; cbn; tauto|]. destruct H. split; assumption.
        * exfalso. repeat (destruct Iv as [Iv|Iv]; [discriminate|]). destruct Iv as [Iv|Iv].
          { apply in_flat_map in Iv as (i & _ & Iv). cbn in Iv. intuition discriminate. }
          cbn [In] in Iv. rewrite in_app_iff in Iv. destruct Iv as [Iv|[Iv|[Iv|Iv]]]; [discriminate|discriminate| |].
          { apply in_flat_map in Iv as (i & _ & Iv). cbn in Iv. intuition discriminate. }
          cbn [In] in Iv. destruct Iv as [Iv|Iv]; [discriminate|]. destruct (hd_entity k); cbn in Iv; intuition discriminate. }
  rewrite AU. clear AU.
  assert (RS : In "res" s3 <-> hd_quiet k = false).
  { subst s3 q. cbn [app In]. destruct (hd_quiet k); intuition congruence. }
  rewrite RS.
  assert (ND : (exists v, In v [q; "err"] /\ v <> "_" /\ ~ In v s2) <-> (hd_quiet k = true -> errors k = 0)).
  { subst q. split.
    - intros (v & Iv & Nv & X) Q. rewrite Q in Iv. destruct Iv as [<- |[<- |[]]]; [congruence|]. rewrite NE in X. lia.
    - intros H. destruct (hd_quiet k); [exists "err"|exists "res"]; cbn; (split; [tauto|]; split; [discriminate|]); [rewrite NE; intros X; apply X; auto|exact NR]. }
  rewrite ND. assert (Qr : q = "res" <-> hd_quiet k = false) by (subst q; destruct (hd_quiet k); intuition congruence). rewrite Qr.
  assert (ER : errors k = (if existsb from_query (hd_inputs k) then 1 else 0) + bodies (hd_inputs k)) by reflexivity.
  destruct (hd_quiet k); destruct (existsb from_query (hd_inputs k)); intuition (try congruence; try lia).
Qed.

Section ACTIONS.
Context (sprint : value -> string) (instant : string -> timestamp -> Prop) (stamp : timestamp -> string -> Prop) (sch : schema) (runtime : bool).
Notation inp := (input_shown sprint instant stamp sch runtime).
Lemma query_iff ins is : Forall2 inp ins is -> (existsb from_query is = true <-> exists p, In p ins /\ ps_query p <> "").
Proof.
  induction 1 as [|p i ins is H _ IH]; cbn [existsb]; [split; [discriminate|intros (p & [] & _)]|]. rewrite Bool.orb_true_iff, IH.
  assert (X : from_query i = true <-> ps_query p <> "") by (destruct H as [f k c Q L K C|f k c Q Hd L K C|f k c Q Hd P L K C|f Q Hd P L]; cbn; intuition congruence).
  rewrite X. cbn [In]. split; [intros [Y|(q & J & Y)]; eauto|intros (q & [<- |J] & Y); eauto].
Qed.
Lemma body_of p i : inp p i -> (is_value i = false <-> in_body p).
Proof. intros H. unfold in_body. destruct H as [f k c Q L K C|f k c Q Hd L K C|f k c Q Hd P L K C|f Q Hd P L]; cbn; intuition congruence. Qed.
Lemma bodies_zero ins is : Forall2 inp ins is -> (bodies is = 0 <-> none in_body ins).
Proof.
  induction 1 as [|p i ins is H _ IH]; [split; [intros _ a []|reflexivity]|]. assert (B := body_of _ _ H). unfold bodies in *. cbn [filter].
  destruct (is_value i); cbn [negb length].
  - rewrite IH. unfold none. cbn [In]. split; [intros N a [<- |J]; [intros Y; apply B in Y; discriminate|auto]|auto].
  - split; [discriminate|]. intros N. destruct (N p (or_introl eq_refl)). apply B. reflexivity.
Qed.
Lemma bodies_one ins is : Forall2 inp ins is -> (bodies is <= 1 <-> forall a p b, ins = a ++ p :: b -> in_body p -> none in_body (a ++ b)).
Proof.
  induction 1 as [|p i ins is H F IH].
  - split; [|cbn; lia]. intros _ a p b E. destruct a; discriminate.
  - assert (B := body_of _ _ H). assert (Z := bodies_zero _ _ F). unfold bodies in *. cbn [filter]. destruct (is_value i); cbn [negb length].
    + rewrite IH. split.
      * intros N a q b E Y. destruct a as [|x a]; cbn in E.
        -- assert (p = q) as -> by congruence. apply B in Y. discriminate.
        -- assert (x = p) as -> by congruence. assert (E' : ins = a ++ q :: b) by congruence. intros y [<- |J]; [intros Y'; apply B in Y'; discriminate|exact (N a q b E' Y y J)].
      * intros N a q b E Y y J. apply (N (p :: a) q b); [cbn; congruence|exact Y|right; exact J].
    + split.
      * intros L. assert (N : none in_body ins) by (apply Z; lia). intros a q b E Y. destruct a as [|x a]; cbn in E.
        -- assert (ins = b) by congruence. subst b. exact N.
        -- assert (E' : ins = a ++ q :: b) by congruence. destruct (N q); [rewrite E'; apply in_elt|exact Y].
      * intros N. assert (X : none in_body ins) by (apply (N [] p ins eq_refl); apply B; reflexivity). apply Z in X. lia.
Qed.
Lemma silent_iff outs hs e : headers_shown outs hs -> entity_shown outs e -> (hs = [] /\ e = None <-> outs = []).
Proof.
  intros H E. split.
  - intros [-> ->]. destruct outs as [|p outs]; [reflexivity|]. cbn in E. inversion H as [|p' ps l Z H'|]; subst. destruct (E p (or_introl eq_refl) Z).
  - intros ->. inversion H. destruct e as [f|]; [|auto]. destruct E as (a & p & b & E & _). destruct a; discriminate.
Qed.
Lemma neat_iff h k : handler_shown sprint instant stamp sch runtime h k -> (variables_ok k <-> neat h).
Proof.
  intros (x & X & _ & _ & _ & _ & FI & Q & _ & HS & ES & _). rewrite variables_iff. unfold errors, silent.
  assert (A := query_iff _ _ FI). assert (B := bodies_zero _ _ FI). assert (C := bodies_one _ _ FI). assert (S := silent_iff _ _ _ HS ES). rewrite S.
  unfold neat. assert (D : forall n y, h_expected h = Some y -> n = y -> n = x) by (intros; congruence).
  assert (NQ : existsb from_query (hd_inputs k) = false <-> forall p, In p (h_inputs h) -> ps_query p = "").
  { split.
    - intros E p J. destruct (string_dec (ps_query p) ""); [assumption|]. rewrite (proj2 A) in E; [discriminate|eauto].
    - intros N. destruct (existsb from_query (hd_inputs k)); [|reflexivity]. destruct (proj1 A eq_refl) as (p & J & Y). destruct Y. auto. }
  split.
  - intros (L & Q1 & Q2). exists x. split; [exact X|]. destruct (hd_quiet k) eqn:E.
    + left. split; [apply Q; reflexivity|]. destruct (Q1 eq_refl) as [Z O]. split; [exact O|]. destruct (existsb from_query (hd_inputs k)); [lia|].
      intros p J. split; [apply (proj1 NQ eq_refl p J)|]. apply B; [lia|exact J].
    + right. split; [intros N; apply Q in N; discriminate|]. split; [auto|]. split.
      * intros p q J J' Y. assert (Z : existsb from_query (hd_inputs k) = true) by (apply A; eauto). rewrite Z in L. apply B; [lia|exact J'].
      * apply C. lia.
  - intros (y & Y & Z). assert (y = x) as -> by congruence. destruct Z as [(N & O & Z)|(N & O & Z1 & Z2)].
    + assert (E : existsb from_query (hd_inputs k) = false) by (apply NQ; intros p J; apply Z; exact J). assert (B0 : bodies (hd_inputs k) = 0) by (apply B; intros p J; apply Z; exact J).
      rewrite E, B0. split; [lia|]. split; [auto|]. intros F. apply Q in N. congruence.
    + assert (E : hd_quiet k = false) by (destruct (hd_quiet k); [destruct N; apply Q; reflexivity|reflexivity]). split; [|split; [congruence|auto]].
      destruct (existsb from_query (hd_inputs k)); [|apply C in Z2; lia]. destruct (proj1 A eq_refl) as (p & J & P).
      assert (B0 : bodies (hd_inputs k) = 0) by (apply B; intros q J'; exact (Z1 p q J J' P)). lia.
Qed.
End ACTIONS.
