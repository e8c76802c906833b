(** Proofs about NewModel, lookup and validation. *)
From Verif Require Import GoStr Outcome Value Schema Scalars Time Model SpecTime SpecModel TimeFacts.
From Coq Require Import ZifyBool ZifyNat.

(** ** NewModel *)
Definition idx_inv (idx : list (string * typedef)) (done : list typedef) : Prop :=
  forall n td, assoc n idx = Some td <->
    (In n builtin_names /\ td = mkTD n "" [] (ts_of n)) \/ (In td done /\ td_name td = n).

Lemma base_index_inv : idx_inv base_index [].
Proof.
  intros n td. split.
  - intro H. left. apply assoc_In in H. unfold base_index in H. apply in_map_iff in H.
    destruct H as (x & Hx & Hin). injection Hx as -> <-. split; [exact Hin|reflexivity].
  - intros [[Hin ->]|[[] _]]. unfold builtin_names in Hin. simpl in Hin.
    repeat (destruct Hin as [<-|Hin]; [reflexivity|]). destruct Hin.
Qed.

Lemma add_types_ok l : forall idx done idx',
  idx_inv idx done -> NoDup (map td_name done) ->
  (forall td, In td done -> ~ In (td_name td) builtin_names) ->
  add_types idx l = Ok idx' ->
  idx_inv idx' (done ++ l) /\ NoDup (map td_name (done ++ l))
  /\ (forall td, In td (done ++ l) -> ~ In (td_name td) builtin_names).
Proof.
  induction l as [|td l IH]; intros idx done idx' Hinv Hnd Hb H; simpl in H.
  - injection H as <-. now rewrite app_nil_r.
  - destruct (assoc (td_name td) idx) as [x|] eqn:E; [discriminate|].
    assert (Hnb : ~ In (td_name td) builtin_names).
    { intro Hin. assert (Hx : assoc (td_name td) idx = Some (mkTD (td_name td) "" [] (ts_of (td_name td))))
        by (apply Hinv; left; auto). congruence. }
    assert (Hnx : ~ In (td_name td) (map td_name done)).
    { intro Hin. apply in_map_iff in Hin. destruct Hin as (y & Hy & Hin).
      assert (Hx : assoc (td_name td) idx = Some y) by (apply Hinv; right; auto). congruence. }
    replace (done ++ td :: l) with ((done ++ [td]) ++ l) by (now rewrite <- app_assoc).
    apply (IH (assoc_set (td_name td) td idx)); [| | |exact H].
    + intros n y. destruct (n =?s td_name td) eqn:En.
      * apply seqb_eq in En. subst n. rewrite assoc_set_same. split.
        -- intro Hs. injection Hs as <-. right. split; [apply in_or_app; right; now left|reflexivity].
        -- intros [[Hbx _]|[Hin Hn]]; [contradiction|].
           apply in_app_or in Hin. destruct Hin as [Hin|[<-|[]]]; [|reflexivity].
           exfalso. apply Hnx. rewrite <- Hn. now apply in_map.
      * apply seqb_neq in En. rewrite assoc_set_other by exact En. rewrite (Hinv n y).
        rewrite in_app_iff. simpl. split.
        -- intros [H1|[H1 H2]]; [now left|right; auto].
        -- intros [H1|[[H1|[<-|[]]] H2]]; [now left|right; auto|congruence].
    + rewrite map_app. simpl.
      clear -Hnd Hnx. induction (map td_name done) as [|a r IHr]; simpl.
      * constructor; [tauto|constructor].
      * inversion Hnd as [|? ? Ha Hr]; subst. constructor.
        -- rewrite in_app_iff. simpl. intros [Hi|[Hi|[]]]; [contradiction|]. apply Hnx. left. auto.
        -- apply IHr; [exact Hr|]. intro Hi. apply Hnx. now right.
    + intros y Hy. apply in_app_or in Hy. destruct Hy as [Hy|[<-|[]]]; auto.
Qed.

Lemma add_types_err l : forall idx done,
  idx_inv idx done -> NoDup (map td_name (done ++ l)) ->
  (forall td, In td l -> ~ In (td_name td) builtin_names) ->
  (exists idx', add_types idx l = Ok idx').
Proof.
  induction l as [|td l IH]; intros idx done Hinv Hnd Hb; simpl.
  - now exists idx.
  - destruct (assoc (td_name td) idx) as [x|] eqn:E.
    + exfalso. apply Hinv in E. destruct E as [[E _]|[Hin Hn]].
      * apply (Hb td); [now left|exact E].
      * rewrite map_app in Hnd. simpl in Hnd. apply NoDup_remove_2 in Hnd. apply Hnd.
        apply in_or_app. left. rewrite <- Hn. now apply in_map.
    + apply (IH _ (done ++ [td])).
      * intros n y. destruct (n =?s td_name td) eqn:En.
        -- apply seqb_eq in En. subst n. rewrite assoc_set_same. split.
           ++ intro Hs. injection Hs as <-. right. split; [apply in_or_app; right; now left|reflexivity].
           ++ intros [[Hbx _]|[Hin Hn]]; [exfalso; apply (Hb td); [now left|exact Hbx]|].
              apply in_app_or in Hin. destruct Hin as [Hin|[<-|[]]]; [|reflexivity].
              exfalso. rewrite map_app in Hnd. simpl in Hnd. apply NoDup_remove_2 in Hnd. apply Hnd.
              apply in_or_app. left. rewrite <- Hn. now apply in_map.
        -- apply seqb_neq in En. rewrite assoc_set_other by exact En. rewrite (Hinv n y).
           rewrite in_app_iff. simpl. split.
           ++ intros [H1|[H1 H2]]; [now left|right; auto].
           ++ intros [H1|[[H1|[<-|[]]] H2]]; [now left|right; auto|congruence].
      * rewrite <- app_assoc. exact Hnd.
      * intros y Hy. apply Hb. now right.
Qed.

Definition hidx_inv (idx : list (string * httpdef)) (done : list httpdef) : Prop :=
  forall n h, assoc n idx = Some h <-> (In h done /\ h_name h = n).

Lemma add_http_ok l : forall idx done idx',
  hidx_inv idx done -> NoDup (map h_name done) -> add_http idx l = Ok idx' ->
  hidx_inv idx' (done ++ l) /\ NoDup (map h_name (done ++ l)).
Proof.
  induction l as [|h l IH]; intros idx done idx' Hinv Hnd H; simpl in H.
  - injection H as <-. now rewrite app_nil_r.
  - destruct (assoc (h_name h) idx) as [x|] eqn:E; [discriminate|].
    assert (Hnx : ~ In (h_name h) (map h_name done)).
    { intro Hin. apply in_map_iff in Hin. destruct Hin as (y & Hy & Hin).
      assert (Hx : assoc (h_name h) idx = Some y) by (apply Hinv; auto). congruence. }
    replace (done ++ h :: l) with ((done ++ [h]) ++ l) by (now rewrite <- app_assoc).
    apply (IH (assoc_set (h_name h) h idx)); [| |exact H].
    + intros n y. destruct (n =?s h_name h) eqn:En.
      * apply seqb_eq in En. subst n. rewrite assoc_set_same. split.
        -- intro Hs. injection Hs as <-. split; [apply in_or_app; right; now left|reflexivity].
        -- intros [Hin Hn]. apply in_app_or in Hin. destruct Hin as [Hin|[<-|[]]]; [|reflexivity].
           exfalso. apply Hnx. rewrite <- Hn. now apply in_map.
      * apply seqb_neq in En. rewrite assoc_set_other by exact En. rewrite (Hinv n y).
        rewrite in_app_iff. simpl. split.
        -- intros [H1 H2]. auto.
        -- intros [[H1|[<-|[]]] H2]; [auto|congruence].
    + rewrite map_app. simpl.
      clear -Hnd Hnx. induction (map h_name done) as [|a r IHr]; simpl.
      * constructor; [tauto|constructor].
      * inversion Hnd as [|? ? Ha Hr]; subst. constructor.
        -- rewrite in_app_iff. simpl. intros [Hi|[Hi|[]]]; [contradiction|]. apply Hnx. left. auto.
        -- apply IHr; [exact Hr|]. intro Hi. apply Hnx. now right.
Qed.

Lemma add_http_total l : forall idx done,
  hidx_inv idx done -> NoDup (map h_name (done ++ l)) -> exists idx', add_http idx l = Ok idx'.
Proof.
  induction l as [|h l IH]; intros idx done Hinv Hnd; simpl.
  - now exists idx.
  - assert (Hnx : ~ In (h_name h) (map h_name done)).
    { rewrite map_app in Hnd. simpl in Hnd. apply NoDup_remove_2 in Hnd. intro Hi. apply Hnd.
      apply in_or_app. now left. }
    destruct (assoc (h_name h) idx) as [x|] eqn:E.
    + exfalso. apply Hinv in E. destruct E as [Hin Hn]. apply Hnx. rewrite <- Hn. now apply in_map.
    + apply (IH _ (done ++ [h])).
      * intros n y. destruct (n =?s h_name h) eqn:En.
        -- apply seqb_eq in En. subst n. rewrite assoc_set_same. split.
           ++ intro Hs. injection Hs as <-. split; [apply in_or_app; right; now left|reflexivity].
           ++ intros [Hin Hn]. apply in_app_or in Hin. destruct Hin as [Hin|[<-|[]]]; [|reflexivity].
              exfalso. apply Hnx. rewrite <- Hn. now apply in_map.
        -- apply seqb_neq in En. rewrite assoc_set_other by exact En. rewrite (Hinv n y).
           rewrite in_app_iff. simpl. split; [intros [H1 H2]; auto|].
           intros [[H1|[<-|[]]] H2]; [auto|congruence].
      * rewrite <- app_assoc. exact Hnd.
Qed.

Lemma add_types_res l : forall idx, (exists i, add_types idx l = Ok i) \/ (exists e, add_types idx l = Err e).
Proof.
  induction l as [|td l IH]; intros idx; simpl; [left; eauto|].
  destruct (assoc (td_name td) idx); [right; eauto|apply IH].
Qed.
Lemma add_http_res l : forall idx, (exists i, add_http idx l = Ok i) \/ (exists e, add_http idx l = Err e).
Proof.
  induction l as [|h l IH]; intros idx; simpl; [left; eauto|].
  destruct (assoc (h_name h) idx); [right; eauto|apply IH].
Qed.

Lemma new_model_inv sch m : new_model sch = Ok m ->
  m_schema m = sch /\ idx_inv (m_types m) (sc_types sch) /\ hidx_inv (m_http m) (sc_http sch)
  /\ collision_free sch.
Proof.
  unfold new_model. intro H. apply rbind_Ok in H. destruct H as (ti & Ht & H).
  apply rbind_Ok in H. destruct H as (hi & Hh & H). injection H as <-.
  apply (add_types_ok _ _ []) in Ht; [|apply base_index_inv|constructor|intros td []].
  apply (add_http_ok _ _ []) in Hh;
    [|intros n h; simpl; split; [discriminate|tauto]|constructor].
  simpl in *. destruct Ht as (H1 & H2 & H3). destruct Hh as [H4 H5].
  split; [reflexivity|]. split; [exact H1|]. split; [exact H4|]. split; [exact H2|]. split; [exact H3|exact H5].
Qed.

Lemma new_model_iff sch :
  (collision_free sch -> exists m, new_model sch = Ok m) /\
  (~ collision_free sch -> exists e, new_model sch = Err e) /\
  (forall m, new_model sch = Ok m -> collision_free sch).
Proof.
  assert (Hc : forall m, new_model sch = Ok m -> collision_free sch).
  { intros m H. apply new_model_inv in H. tauto. }
  assert (Hr : (exists m, new_model sch = Ok m) \/ (exists e, new_model sch = Err e)).
  { unfold new_model. destruct (add_types_res (sc_types sch) base_index) as [[ti ->]|[e ->]]; [|right; exists e; reflexivity].
    cbn [rbind]. destruct (add_http_res (sc_http sch) []) as [[hi ->]|[e ->]]; [left|right]; eexists; reflexivity. }
  split; [|split; [|exact Hc]].
  - intros (H1 & H2 & H3). unfold new_model.
    destruct (add_types_err (sc_types sch) base_index [] base_index_inv) as [ti ->]; [exact H1|exact H2|].
    cbn [rbind].
    destruct (add_http_total (sc_http sch) [] []) as [hi ->];
      [intros n h; simpl; split; [discriminate|tauto]|exact H3|].
    cbn [rbind]. eauto.
  - intro Hn. destruct Hr as [[m Hm]|He]; [|exact He]. exfalso. apply Hn. eauto.
Qed.

Lemma find_type_spec sch m : new_model sch = Ok m ->
  forall n td, find_type m n = Some td <-> declares sch n td.
Proof. intro H. apply new_model_inv in H. destruct H as (_ & H & _). intros n td. apply H. Qed.
Lemma find_http_spec sch m : new_model sch = Ok m ->
  forall n h, find_http m n = Some h <-> In h (sc_http sch) /\ h_name h = n.
Proof. intro H. apply new_model_inv in H. destruct H as (_ & _ & H & _). intros n h. apply H. Qed.

Lemma find_type_defines sch m : new_model sch = Ok m ->
  forall n ts, (exists td, find_type m n = Some td /\ td_spec td = ts) <-> defines sch n ts.
Proof.
  intros H n ts. unfold defines. split; intros (td & H1 & H2); exists td; (split; [|exact H2]);
    apply (find_type_spec sch m H); exact H1.
Qed.
Lemma find_type_none sch m : new_model sch = Ok m ->
  forall n, find_type m n = None <-> forall td, ~ declares sch n td.
Proof.
  intros H n. split.
  - intros Hn td Hd. apply (find_type_spec sch m H) in Hd. congruence.
  - intro Hd. destruct (find_type m n) as [td|] eqn:E; [|reflexivity].
    exfalso. apply (Hd td). now apply (find_type_spec sch m H).
Qed.
Lemma defines_fun sch m : new_model sch = Ok m ->
  forall n t1 t2, defines sch n t1 -> defines sch n t2 -> t1 = t2.
Proof.
  intros H n t1 t2 H1 H2. apply (find_type_defines sch m H) in H1, H2.
  destruct H1 as (a & Ha & <-). destruct H2 as (b & Hb & <-). congruence.
Qed.

(** ** Decimals *)
Lemma pow2_scale m e k : (k <= e)%Z -> forall j, (j <= k)%Z ->
  (m * 2 ^ (e - j) = (m * 2 ^ (e - k)) * 2 ^ (k - j))%Z.
Proof.
  intros Hk j Hj. rewrite <- Z.mul_assoc, <- Z.pow_add_r by lia. do 2 f_equal. lia.
Qed.
Lemma dec_le_min m1 e1 m2 e2 : dec_le (DFin m1 e1) (DFin m2 e2) <->
  (m1 * 2 ^ (e1 - Z.min e1 e2) <= m2 * 2 ^ (e2 - Z.min e1 e2))%Z.
Proof.
  unfold dec_le. split.
  - intros (k & H1 & H2 & H3).
    rewrite (pow2_scale m1 e1 (Z.min e1 e2)) in H3 by lia.
    rewrite (pow2_scale m2 e2 (Z.min e1 e2)) in H3 by lia.
    apply Z.mul_le_mono_pos_r in H3; [exact H3|]. apply Z.pow_pos_nonneg; lia.
  - intro H. exists (Z.min e1 e2). lia.
Qed.
Lemma dec_cmp_le a b : dec_cmp a b <> Gt <-> dec_le a b.
Proof.
  destruct a as [m1 e1|[|]], b as [m2 e2|[|]];
    try (cbn; split; [intros; first [exact I|congruence]|intros; first [discriminate|contradiction]]).
  rewrite dec_le_min. cbn [dec_cmp]. cbv zeta. rewrite Z.compare_gt_iff. lia.
Qed.
Lemma dec_cmp_antisym a b : dec_cmp b a = CompOpp (dec_cmp a b).
Proof.
  destruct a as [m1 e1|[|]], b as [m2 e2|[|]]; try reflexivity.
  cbn [dec_cmp]. rewrite (Z.min_comm e2 e1). apply Z.compare_antisym.
Qed.
Lemma dec_cmp_ge a b : dec_cmp a b <> Lt <-> dec_le b a.
Proof.
  rewrite <- dec_cmp_le, (dec_cmp_antisym a b). destruct (dec_cmp a b); simpl; split; congruence.
Qed.

(** ** sizes *)
Lemma size_lt_spec n o : size_lt n o = false <-> at_least n o.
Proof. destruct o; simpl; [rewrite Z.ltb_ge|]; tauto. Qed.
Lemma size_gt_spec n o : size_gt n o = false <-> at_most n o.
Proof. destruct o; simpl; [rewrite Z.ltb_ge|]; tauto. Qed.

(** ** UUID *)
Lemma at_is_spec i c s : at_is i c s = true <-> exists a b, s = a +++ String c b /\ String.length a = i.
Proof.
  unfold at_is. revert i. induction s as [|x s IH]; intros i.
  - destruct i; simpl; (split; [discriminate|]); intros ([|y a] & b & H & _); discriminate.
  - destruct i as [|i]; simpl.
    + rewrite ceqb_eq. split.
      * intros ->. now exists EmptyString, s.
      * intros (a & b & H & Hl). destruct a; [|discriminate]. injection H as ->. reflexivity.
    + rewrite IH. split.
      * intros (a & b & -> & <-). now exists (String x a), b.
      * intros (a & b & H & Hl). destruct a as [|y a]; [discriminate|].
        injection H as <- ->. injection Hl as Hl. now exists a, b.
Qed.
Lemma append_eq_app a b c d : String.length a = String.length c -> a +++ b = c +++ d -> a = c /\ b = d.
Proof.
  revert c. induction a as [|x a IH]; intros [|y c] Hl H; simpl in *; try discriminate; [auto|].
  injection H as <- H. injection Hl as Hl. destruct (IH c Hl H) as [-> ->]. auto.
Qed.
Lemma sdrop_length n s : String.length (sdrop n s) = String.length s - n.
Proof. revert n; induction s as [|c s IH]; intros [|n]; simpl; auto. Qed.

Lemma parse_uuid_shape s : parse_uuid s <> EmptyString <-> uuid_shape (fun _ => True) s.
Proof.
  unfold parse_uuid. split.
  - destruct (String.length s =? 36) eqn:El; cbn [negb]; [|congruence].
    destruct (at_is 8 "-" s && at_is 13 "-" s && at_is 18 "-" s && at_is 23 "-" s) eqn:Ea; cbn [negb]; [|congruence].
    intros _. apply Nat.eqb_eq in El.
    rewrite !andb_true_iff in Ea. destruct Ea as [[[E1 E2] E3] E4].
    apply at_is_spec in E1, E2, E3, E4.
    destruct E1 as (a & r1 & -> & La).
    destruct E2 as (p2 & r2 & H2 & L2).
    assert (Hb : exists b, r1 = b +++ String "-" r2 /\ String.length b = 4).
    { exists (sdrop 9 p2). rewrite <- (stake_sdrop 9 p2) in H2. rewrite append_assoc in H2.
      change (a +++ String "-" r1) with (a +++ "-" +++ r1) in H2. rewrite <- append_assoc in H2.
      apply append_eq_app in H2.
      - destruct H2 as [_ ->]. split; [reflexivity|]. rewrite sdrop_length. lia.
      - rewrite append_length. rewrite stake_length by lia. simpl. lia. }
    destruct Hb as (b & -> & Lb). clear H2 L2 p2.
    destruct E3 as (p3 & r3 & H3 & L3).
    assert (Hc : exists c, r2 = c +++ String "-" r3 /\ String.length c = 4).
    { exists (sdrop 14 p3). rewrite <- (stake_sdrop 14 p3) in H3. rewrite append_assoc in H3.
      replace (a +++ String "-" (b +++ String "-" r2)) with ((a +++ "-" +++ b +++ "-") +++ r2) in H3
        by (sapp; reflexivity).
      apply append_eq_app in H3.
      - destruct H3 as [_ ->]. split; [reflexivity|]. rewrite sdrop_length. lia.
      - rewrite !append_length. rewrite stake_length by lia. simpl. lia. }
    destruct Hc as (c & -> & Lc). clear H3 L3 p3.
    destruct E4 as (p4 & r4 & H4 & L4).
    assert (Hd : exists d, r3 = d +++ String "-" r4 /\ String.length d = 4).
    { exists (sdrop 19 p4). rewrite <- (stake_sdrop 19 p4) in H4. rewrite append_assoc in H4.
      replace (a +++ String "-" (b +++ String "-" (c +++ String "-" r3)))
        with ((a +++ "-" +++ b +++ "-" +++ c +++ "-") +++ r3) in H4
        by (sapp; reflexivity).
      apply append_eq_app in H4.
      - destruct H4 as [_ ->]. split; [reflexivity|]. rewrite sdrop_length. lia.
      - rewrite !append_length. rewrite stake_length by lia. simpl. lia. }
    destruct Hd as (d & -> & Ld). clear H4 L4 p4.
    exists a, b, c, d, r4. split; [reflexivity|].
    repeat (rewrite !append_length in El; cbn [String.length] in El).
    repeat (split; [assumption || lia|]). auto.
  - intros (a & b & c & d & e & -> & La & Lb & Lc & Ld & Le & _).
    match goal with |- context [String.length ?s =? 36] => assert (Hlen : String.length s = 36) end.
    { rewrite !append_length. cbn [String.length]. lia. }
    rewrite Hlen. cbn [Nat.eqb negb].
    assert (H1 : forall (p q : string) i, String.length p = i -> at_is i "-" (p +++ "-" +++ q) = true).
    { intros p q i Hp. apply at_is_spec. exists p, q. auto. }
    rewrite (H1 a _ 8 La).
    replace (a +++ "-" +++ b +++ "-" +++ c +++ "-" +++ d +++ "-" +++ e)
      with ((a +++ "-" +++ b) +++ "-" +++ c +++ "-" +++ d +++ "-" +++ e) at 1 by (sapp; reflexivity).
    rewrite (H1 _ _ 13) by (rewrite !append_length; cbn [String.length]; lia).
    replace (a +++ "-" +++ b +++ "-" +++ c +++ "-" +++ d +++ "-" +++ e)
      with ((a +++ "-" +++ b +++ "-" +++ c) +++ "-" +++ d +++ "-" +++ e) at 1 by (sapp; reflexivity).
    rewrite (H1 _ _ 18) by (rewrite !append_length; cbn [String.length]; lia).
    replace (a +++ "-" +++ b +++ "-" +++ c +++ "-" +++ d +++ "-" +++ e)
      with ((a +++ "-" +++ b +++ "-" +++ c +++ "-" +++ d) +++ "-" +++ e) at 1 by (sapp; reflexivity).
    rewrite (H1 _ _ 23) by (rewrite !append_length; cbn [String.length]; lia).
    cbn [andb negb]. destruct a; discriminate.
Qed.

(** ** One step of the validator, per kind *)
Section V.
Variable X : ext.
Variable sch : schema.
Variable m : model.
Hypothesis Hm : new_model sch = Ok m.

Ltac kind H := unfold validate_step; rewrite H; reflexivity.

Section Step.
Variable rec : list step -> typespec -> value -> vres.
Lemma step_time ctx ts v : ts_type ts = "Timestamp" -> validate_step X m rec ctx ts v = validate_timestamp X v.
Proof. intro H. kind H. Qed.
Lemma step_string ctx ts v : ts_type ts = "String" -> validate_step X m rec ctx ts v = validate_string X ts v.
Proof. intro H. kind H. Qed.
Lemma step_struct ctx ts v : ts_type ts = "Struct" -> validate_step X m rec ctx ts v = validate_struct rec ctx ts v.
Proof. intro H. kind H. Qed.
Lemma step_array ctx ts v : ts_type ts = "Array" -> validate_step X m rec ctx ts v = validate_array m rec ctx ts v.
Proof. intro H. kind H. Qed.
Lemma step_map ctx ts v : ts_type ts = "Map" -> validate_step X m rec ctx ts v = validate_map m rec ctx ts v.
Proof. intro H. kind H. Qed.
Lemma step_number ctx ts v : In (ts_type ts) number_kinds -> validate_step X m rec ctx ts v = validate_number ctx ts v.
Proof.
  intro H. simpl in H. unfold validate_step.
  repeat (destruct H as [<-|H]; [reflexivity|]). destruct H.
Qed.
Lemma step_bool ctx ts v : ts_type ts = "Bool" -> validate_step X m rec ctx ts v = validate_bool ctx v.
Proof. intro H. kind H. Qed.
Lemma step_enum ctx ts v : ts_type ts = "Enum" -> validate_step X m rec ctx ts v = validate_enum ctx ts v.
Proof. intro H. kind H. Qed.
Lemma step_unit ctx ts v : ts_type ts = "UnitValue" -> validate_step X m rec ctx ts v = validate_unitvalue X m rec ctx ts v.
Proof. intro H. kind H. Qed.
Lemma step_uuid ctx ts v : ts_type ts = "UUID" -> validate_step X m rec ctx ts v = validate_uuid ctx v.
Proof. intro H. kind H. Qed.
Lemma step_bytes ctx ts v : ts_type ts = "Bytes" -> validate_step X m rec ctx ts v = Ok tt.
Proof. intro H. kind H. Qed.
Lemma step_any ctx ts v : ts_type ts = "Any" -> validate_step X m rec ctx ts v = Ok tt.
Proof. intro H. kind H. Qed.
Lemma step_ref ctx ts v : ~ In (ts_type ts) kinds ->
  validate_step X m rec ctx ts v =
  match find_type m (ts_type ts) with
  | None => fail_at ctx (ENoSuchType (ts_type ts))
  | Some td => rec ctx (td_spec td) v
  end.
Proof.
  intro H. unfold validate_step.
  assert (E : forall k, In k kinds -> (ts_type ts =?s k) = false).
  { intros k Hk. apply seqb_neq. intro Hx. apply H. now rewrite Hx. }
  rewrite !E by (simpl; tauto).
  replace (str_mem (ts_type ts) numeric_types) with false; [reflexivity|].
  symmetry. apply str_mem_nIn. intro Hi. apply H. unfold numeric_types in Hi. simpl in *. tauto.
Qed.
End Step.

(** Every spec is of one of the kinds or a reference. *)
Lemma kind_dec ts : In (ts_type ts) kinds \/ ~ In (ts_type ts) kinds.
Proof. destruct (In_dec string_dec (ts_type ts) kinds); auto. Qed.

(** ** Monotonicity in the fuel *)
Definition extends (r1 r2 : list step -> typespec -> value -> vres) : Prop :=
  forall ctx ts v, r1 ctx ts v <> OutOfFuel -> r2 ctx ts v = r1 ctx ts v.

Lemma bind_ext (a a' b b' : vres) :
  (a <> OutOfFuel -> a' = a) -> (b <> OutOfFuel -> b' = b) ->
  rbind a (fun _ => b) <> OutOfFuel -> rbind a' (fun _ => b') = rbind a (fun _ => b).
Proof.
  intros Ha Hb H. destruct a as [[]|e| |]; simpl in *.
  - rewrite Ha by discriminate. simpl. auto.
  - rewrite Ha by discriminate. reflexivity.
  - rewrite Ha by discriminate. reflexivity.
  - congruence.
Qed.

Lemma step_ext r1 r2 : extends r1 r2 -> extends (validate_step X m r1) (validate_step X m r2).
Proof.
  intros He ctx ts v.
  assert (Hnamed : forall c n x, validate_named m r1 c n x <> OutOfFuel ->
            validate_named m r2 c n x = validate_named m r1 c n x).
  { intros c n x. unfold validate_named. destruct (find_type m n); [apply He|reflexivity]. }
  assert (Hfields : forall c fs l, check_fields r1 c fs l <> OutOfFuel ->
            check_fields r2 c fs l = check_fields r1 c fs l).
  { intros c fs l. induction fs as [|f fs IH]; simpl; [reflexivity|].
    destruct (assoc (fd_name f) l) as [x|]; [|destruct (fd_required f); auto].
    apply bind_ext; auto. }
  assert (Hitems : forall c t l i, check_items r1 c t i l <> OutOfFuel ->
            check_items r2 c t i l = check_items r1 c t i l).
  { intros c t l. induction l as [|x l IH]; intros i; simpl; [reflexivity|]. apply bind_ext; auto. }
  assert (Hentries : forall c t l, check_entries r1 c t l <> OutOfFuel ->
            check_entries r2 c t l = check_entries r1 c t l).
  { intros c t l. induction l as [|[k x] l IH]; simpl; [reflexivity|]. apply bind_ext; auto. }
  destruct (kind_dec ts) as [Hk|Hk].
  - simpl in Hk.
    repeat (destruct Hk as [Hk|Hk]; [symmetry in Hk|]); try contradiction.
    all: try (rewrite !step_number by (rewrite Hk; simpl; tauto); reflexivity).
    all: first [ rewrite !step_time by exact Hk; reflexivity
               | rewrite !step_string by exact Hk; reflexivity
               | rewrite !step_bool by exact Hk; reflexivity
               | rewrite !step_enum by exact Hk; reflexivity
               | rewrite !step_uuid by exact Hk; reflexivity
               | rewrite !step_bytes by exact Hk; reflexivity
               | rewrite !step_any by exact Hk; reflexivity
               | idtac ].
    + rewrite !step_unit by exact Hk. unfold validate_unitvalue.
      destruct v; try reflexivity. destruct (cut " " s) as [[a u]|]; [|reflexivity].
      destruct (3 <=? String.length a); [|reflexivity]. destruct (x_decimal X a); [|reflexivity].
      apply bind_ext; apply Hnamed.
    + rewrite !step_array by exact Hk. unfold validate_array. destruct v; try reflexivity.
      apply bind_ext; [|auto]. destruct (ts_items ts =?s "Any"); [auto|].
      destruct (find_type m (ts_items ts)); auto.
    + rewrite !step_map by exact Hk. unfold validate_map. destruct v; try reflexivity.
      apply bind_ext; [|auto]. destruct (ts_items ts =?s "Any"); [auto|].
      destruct (find_type m (ts_items ts)); auto.
    + rewrite !step_struct by exact Hk. unfold validate_struct. destruct v; try reflexivity.
      apply bind_ext; auto.
  - rewrite !step_ref by exact Hk. destruct (find_type m (ts_type ts)); [apply He|reflexivity].
Qed.

Lemma fuel_ext f : extends (validate_spec X m f) (validate_spec X m (S f)).
Proof.
  induction f as [|f IH]; [intros ctx ts v H; simpl in H; congruence|].
  exact (step_ext _ _ IH).
Qed.
Lemma fuel_mono f f' ctx ts v : f <= f' -> validate_spec X m f ctx ts v <> OutOfFuel ->
  validate_spec X m f' ctx ts v = validate_spec X m f ctx ts v.
Proof.
  intros Hle Hn. induction Hle as [|g Hg IH]; [reflexivity|].
  rewrite (fuel_ext g ctx ts v); [exact IH|]. rewrite IH. exact Hn.
Qed.

(** ** Soundness: an accepted value is in the specification *)
Lemma bind_ok (a b : vres) : rbind a (fun _ => b) = Ok tt <-> a = Ok tt /\ b = Ok tt.
Proof.
  destruct a as [[]|e| |]; simpl; split; try tauto; try (intros [H _]; discriminate); try discriminate.
Qed.

Lemma check_keys_ok ctx ts l : check_keys ctx ts l = Ok tt <->
  (forall k, In k (map fst l) -> exists f, In f (ts_fields ts) /\ fd_name f = k).
Proof.
  induction l as [|[k x] l IH]; simpl; [split; [intros _ k []|reflexivity]|].
  unfold is_struct_field. destruct (str_mem k (map fd_name (ts_fields ts))) eqn:E.
  - rewrite IH. apply str_mem_In in E. apply in_map_iff in E. destruct E as (f & <- & Hf).
    split; [intros H k' [<-|Hk]; eauto|auto].
  - apply str_mem_nIn in E. split; [discriminate|]. intro H. exfalso. apply E.
    destruct (H k (or_introl eq_refl)) as (f & Hf & <-). now apply in_map.
Qed.

Section Ok.
Variable rec : list step -> typespec -> value -> vres.

Lemma check_items_ok ctx ts l : forall i,
  check_items rec ctx ts i l = Ok tt <-> (forall j x, nth_error l j = Some x -> rec (ctx ++ [PIndex (i + j)]) ts x = Ok tt).
Proof.
  induction l as [|x l IH]; intros i; simpl.
  - split; [intros _ [|j] y; discriminate|reflexivity].
  - rewrite bind_ok, IH. split.
    + intros [H1 H2] [|j] y Hy; simpl in Hy.
      * injection Hy as <-. now rewrite Nat.add_0_r.
      * rewrite <- Nat.add_succ_comm. auto.
    + intro H. split.
      * specialize (H 0 x eq_refl). now rewrite Nat.add_0_r in H.
      * intros j y Hy. rewrite Nat.add_succ_comm. now apply H.
Qed.
Lemma check_entries_ok ctx ts l :
  check_entries rec ctx ts l = Ok tt <-> (forall k x, In (k, x) l -> rec (ctx ++ [PKey k]) ts x = Ok tt).
Proof.
  induction l as [|[k x] l IH]; simpl.
  - split; [intros _ k x []|reflexivity].
  - rewrite bind_ok, IH. split.
    + intros [H1 H2] k' y [Hy|Hy]; [injection Hy as <- <-; exact H1|auto].
    + intro H. split; [apply H; now left|]. intros k' y Hy. apply H. now right.
Qed.
Lemma check_fields_ok ctx fs l : check_fields rec ctx fs l = Ok tt <->
  (forall f, In f fs -> match assoc (fd_name f) l with
                        | Some x => rec (ctx ++ [PField (fd_name f)]) (fd_spec f) x = Ok tt
                        | None => fd_required f = false end).
Proof.
  induction fs as [|f fs IH]; simpl; [split; [intros _ f []|reflexivity]|].
  destruct (assoc (fd_name f) l) as [x|] eqn:E.
  - rewrite bind_ok, IH. split.
    + intros [H1 H2] g [<-|Hg]; [now rewrite E|exact (H2 g Hg)].
    + intro H. split; [specialize (H f (or_introl eq_refl)); now rewrite E in H|].
      intros g Hg. apply H. now right.
  - destruct (fd_required f) eqn:Er.
    + split; [discriminate|]. intro H. specialize (H f (or_introl eq_refl)). rewrite E in H. congruence.
    + rewrite IH. split.
      * intros H g [<-|Hg]; [now rewrite E|exact (H g Hg)].
      * intros H g Hg. apply H. now right.
Qed.
Lemma check_sizes_ok ctx ts n : check_sizes ctx ts n = Ok tt <-> sizes_ok ts n.
Proof.
  unfold check_sizes, sizes_ok. rewrite <- size_lt_spec, <- size_gt_spec.
  destruct (size_gt n (ts_maxsize ts)), (size_lt n (ts_minsize ts)); split; try discriminate; auto;
    intros [? ?]; discriminate.
Qed.
End Ok.

Lemma string_or_empty_text v s : string_or_empty v = s -> s <> EmptyString -> text_of v s.
Proof. unfold text_of. destruct v; simpl; intros <- Hs; try congruence; auto. Qed.

Lemma validate_string_ok ts v : validate_string X ts v = Ok tt <->
  exists s, text_of v s /\ sizes_ok ts (String.length s) /\
    (forall vs, ts_values ts = Some vs -> In s vs) /\
    (ts_values ts = None -> pattern_ok X (ts_pattern ts) s).
Proof.
  assert (K : forall s, text_of v s ->
    (validate_string X ts v = Ok tt <->
     sizes_ok ts (String.length s) /\ (forall vs, ts_values ts = Some vs -> In s vs) /\
     (ts_values ts = None -> pattern_ok X (ts_pattern ts) s))).
  { intros s Hs.
    assert (E : validate_string X ts v =
      (if size_lt (String.length s) (ts_minsize ts) then fail_no EMinSize
       else if size_gt (String.length s) (ts_maxsize ts) then fail_no EMaxSize
       else match ts_values ts with
            | Some vs => if str_mem s vs then Ok tt else fail_no EValues
            | None => if ts_pattern ts =?s "" then Ok tt
                      else match x_regex X (ts_pattern ts) with
                           | None => fail_no EBadPattern
                           | Some f => if f s then Ok tt else fail_no EPattern end end))
      by (destruct Hs as [-> | ->]; reflexivity).
    rewrite E. unfold sizes_ok, pattern_ok.
    rewrite <- size_lt_spec, <- size_gt_spec.
    destruct (size_lt (String.length s) (ts_minsize ts)); [split; [discriminate|intros [[? _] _]; discriminate]|].
    destruct (size_gt (String.length s) (ts_maxsize ts)); [split; [discriminate|intros [[_ ?] _]; discriminate]|].
    destruct (ts_values ts) as [vs|].
    - destruct (str_mem s vs) eqn:Em.
      + apply str_mem_In in Em. split; [intros _|reflexivity]. split; [auto|]. split; [congruence|discriminate].
      + apply str_mem_nIn in Em. split; [discriminate|]. intros (_ & H & _). exfalso. apply Em. auto.
    - destruct (ts_pattern ts =?s "") eqn:Ep.
      + apply seqb_eq in Ep. split; [intros _|reflexivity]. split; [auto|]. split; [discriminate|]. auto.
      + apply seqb_neq in Ep. destruct (x_regex X (ts_pattern ts)) as [f|].
        * destruct (f s) eqn:Ef.
          -- split; [intros _|reflexivity]. split; [auto|]. split; [discriminate|]. intros _. right. eauto.
          -- split; [discriminate|]. intros (_ & _ & H). destruct (H eq_refl) as [?|(g & Hg & Hgs)]; congruence.
        * split; [discriminate|]. intros (_ & _ & H). destruct (H eq_refl) as [?|(g & Hg & _)]; congruence. }
  split.
  - intro H. assert (Hs : exists s, text_of v s).
    { unfold text_of. destruct v; simpl in H; try discriminate; eauto. }
    destruct Hs as [s Hs]. exists s. split; [exact Hs|]. now apply K.
  - intros (s & Hs & Hr). apply (K s Hs). exact Hr.
Qed.

Lemma validate_number_ok ctx ts v : In (ts_type ts) number_kinds ->
  (validate_number ctx ts v = Ok tt <-> exists d, v = VDec d /\ within d (ts_min ts) (ts_max ts)).
Proof.
  intro Hk.
  assert (Hl : number_limits ts = (ts_min ts, ts_max ts)).
  { unfold number_limits. simpl in Hk.
    repeat (destruct Hk as [<-|Hk]; [cbn; destruct (ts_min ts), (ts_max ts); reflexivity|]). destruct Hk. }
  unfold validate_number. rewrite Hl.
  destruct v; try (split; [discriminate|intros (d' & Hd & _); discriminate]).
  assert (K : (match (match ts_min ts with Some x => match dec_cmp d x with Lt => true | _ => false end | None => false end) with
      | true => fail_at ctx EBelowMin
      | false =>
          match (match ts_max ts with Some x => match dec_cmp d x with Gt => true | _ => false end | None => false end) with
          | true => fail_at ctx EAboveMax
          | false => Ok tt
          end
      end) = Ok tt <-> within d (ts_min ts) (ts_max ts)).
  { unfold within. destruct (ts_min ts) as [lo|], (ts_max ts) as [hi|].
    - pose proof (dec_cmp_ge d lo) as H1. pose proof (dec_cmp_le d hi) as H2.
      destruct (dec_cmp d lo) eqn:E1; destruct (dec_cmp d hi) eqn:E2; split; try discriminate;
        try (intros [Ha Hb]; exfalso; first [exact (proj2 H1 (Ha _ eq_refl) eq_refl) | exact (proj2 H2 (Hb _ eq_refl) eq_refl)]);
        try reflexivity; intros _; (split; intros z Hz; injection Hz as <-; [apply H1|apply H2]; discriminate).
    - pose proof (dec_cmp_ge d lo) as H1.
      destruct (dec_cmp d lo) eqn:E1; split; try discriminate;
        try (intros [Ha Hb]; exfalso; exact (proj2 H1 (Ha _ eq_refl) eq_refl));
        try reflexivity; intros _; (split; intros z Hz; [injection Hz as <-; apply H1; discriminate|discriminate]).
    - pose proof (dec_cmp_le d hi) as H2.
      destruct (dec_cmp d hi) eqn:E2; split; try discriminate;
        try (intros [Ha Hb]; exfalso; exact (proj2 H2 (Hb _ eq_refl) eq_refl));
        try reflexivity; intros _; (split; intros z Hz; [discriminate|injection Hz as <-; apply H2; discriminate]).
    - split; [intros _; split; discriminate|reflexivity]. }
  rewrite K. split; [intro H; exists d; auto|intros (d' & Hd & H); injection Hd as <-; exact H].
Qed.

Lemma validate_enum_ok ctx ts v : validate_enum ctx ts v = Ok tt <->
  exists s, text_of v s /\ s <> EmptyString /\ exists e, In e (ts_elements ts) /\ ee_symbol e = s.
Proof.
  unfold validate_enum. split.
  - destruct (negb (string_or_empty v =?s "") && str_mem (string_or_empty v) (map ee_symbol (ts_elements ts))) eqn:E;
      [|discriminate].
    intros _. apply andb_true_iff in E. destruct E as [E1 E2]. apply negb_true_iff, seqb_neq in E1.
    exists (string_or_empty v). split; [now apply string_or_empty_text|]. split; [exact E1|].
    apply str_mem_In, in_map_iff in E2. destruct E2 as (e & He & Hin). eauto.
  - intros (s & Hs & Hne & e & He & Hes).
    assert (E : string_or_empty v = s) by (destruct Hs as [-> | ->]; reflexivity). rewrite E.
    apply seqb_neq in Hne. rewrite Hne. cbn [negb andb].
    assert (Hm' : str_mem s (map ee_symbol (ts_elements ts)) = true).
    { apply str_mem_In, in_map_iff. eauto. }
    now rewrite Hm'.
Qed.

Lemma validate_uuid_ok ctx v : validate_uuid ctx v = Ok tt <->
  (exists s, v = VUuid s) \/ exists s, text_of v s /\ uuid_shape (fun _ => True) s.
Proof.
  split.
  - intro H. destruct v; try (left; eauto; fail); right; unfold validate_uuid in H; cbn [string_or_empty] in H;
      try discriminate;
      (destruct (s =?s "") eqn:E1; [discriminate|]; destruct (parse_uuid s =?s "") eqn:E2; [discriminate|]);
      exists s; (split; [unfold text_of; auto|]); apply parse_uuid_shape; apply seqb_neq; exact E2.
  - intros [[s ->]|(s & Hs & Hu)]; [reflexivity|].
    apply parse_uuid_shape in Hu.
    assert (Hne : s <> EmptyString) by (intros ->; apply Hu; reflexivity).
    apply seqb_neq in Hne, Hu.
    destruct Hs as [-> | ->]; unfold validate_uuid; cbn [string_or_empty]; rewrite Hne, Hu; reflexivity.
Qed.

Lemma validate_timestamp_ok v : validate_timestamp X v = Ok tt <->
  (exists t, v = VTime t) \/
  exists s t, v = VPStr s /\ time_text_v (x_comma X) (x_long X) s t /\ real_time t.
Proof.
  split.
  - intro H. destruct v; simpl in H; try discriminate.
    + right. destruct (parse_timestamp (x_comma X) (x_long X) s) as [t|] eqn:E; [|discriminate].
      apply parse_timestamp_iff in E. exists s, t. tauto.
    + left. eauto.
  - intros [[t ->]|(s & t & -> & H1 & H2)]; [reflexivity|]. simpl.
    rewrite (proj2 (parse_timestamp_iff _ _ s t)); [reflexivity|auto].
Qed.

Lemma sound_aux f : forall ctx ts v, vwf v -> validate_spec X m f ctx ts v = Ok tt -> accepts X sch ts v.
Proof.
  induction f as [|f IH]; intros ctx ts v Hwf H; [discriminate|].
  cbn [validate_spec] in H.
  assert (Hdef : forall n td, find_type m n = Some td -> defines sch n (td_spec td)).
  { intros n td Hf. exists td. split; [|reflexivity]. now apply (find_type_spec sch m Hm). }
  destruct (kind_dec ts) as [Hk|Hk].
  2:{ rewrite step_ref in H by exact Hk. destruct (find_type m (ts_type ts)) as [td|] eqn:E; [|discriminate].
      eapply ac_ref; [split; [exact Hk|exact (Hdef _ _ E)]|]. eapply IH; eauto. }
  simpl in Hk.
  repeat (destruct Hk as [Hk|Hk]; [symmetry in Hk|]); try contradiction.
  all: try (rewrite step_number in H by (rewrite Hk; simpl; tauto);
            apply validate_number_ok in H; [|rewrite Hk; simpl; tauto];
            destruct H as (d & -> & H); apply ac_number; [rewrite Hk; simpl; tauto|exact H]).
  - rewrite step_bool in H by exact Hk. destruct v; simpl in H; try discriminate; [apply ac_bool|apply ac_pbool]; exact Hk.
  - now apply ac_bytes.
  - rewrite step_string in H by exact Hk. apply validate_string_ok in H.
    destruct H as (s & H1 & H2 & H3 & H4). eapply ac_string; eauto.
  - rewrite step_time in H by exact Hk. apply validate_timestamp_ok in H.
    destruct H as [[t ->]|(s & t & -> & H1 & H2)]; [now apply ac_time|eapply ac_time_text; eauto].
  - rewrite step_unit in H by exact Hk. unfold validate_unitvalue in H.
    destruct v; try discriminate. destruct (cut " " s) as [[a u]|] eqn:Ec; [|discriminate].
    apply cut_Some in Ec. destruct Ec as [-> Hsp].
    destruct (3 <=? String.length a) eqn:El; [|discriminate]. apply Nat.leb_le in El.
    destruct (x_decimal X a) as [d|] eqn:Ed; [|discriminate].
    apply bind_ok in H. destruct H as [H1 H2]. unfold validate_named in H1, H2.
    destruct (find_type m (ts_value ts)) as [td1|] eqn:E1; [|discriminate].
    destruct (find_type m (ts_unit ts)) as [td2|] eqn:E2; [|discriminate].
    eapply ac_unit with (d := d); eauto.
    + eapply IH; [|exact H1]. constructor; discriminate.
    + eapply IH; [|exact H2]. constructor; discriminate.
  - rewrite step_uuid in H by exact Hk. apply validate_uuid_ok in H.
    destruct H as [[s ->]|(s & H1 & H2)]; [now apply ac_uuid|eapply ac_uuid_text; eauto].
  - rewrite step_array in H by exact Hk. unfold validate_array in H. destruct v; try discriminate.
    apply bind_ok in H. destruct H as [H1 H2]. apply check_sizes_ok in H2.
    destruct (ts_items ts =?s "Any") eqn:Ea.
    + apply seqb_eq in Ea. now apply ac_array_any.
    + apply seqb_neq in Ea. destruct (find_type m (ts_items ts)) as [td|] eqn:E; [|discriminate].
      eapply ac_array; eauto. intros x Hx. apply In_nth_error in Hx. destruct Hx as [j Hj].
      rewrite check_items_ok in H1. pose proof (H1 _ _ Hj) as H3. eapply IH; [|exact H3].
      inversion Hwf as [w Hw1 Hw2|l0 Hl|]; subst; [now specialize (Hw1 l)|].
      rewrite Forall_forall in Hl. apply Hl. eapply nth_error_In; eauto.
  - rewrite step_map in H by exact Hk. unfold validate_map in H. destruct v; try discriminate.
    apply bind_ok in H. destruct H as [H1 H2]. apply check_sizes_ok in H2.
    destruct (ts_items ts =?s "Any") eqn:Ea.
    + apply seqb_eq in Ea. now apply ac_map_any.
    + apply seqb_neq in Ea. destruct (find_type m (ts_items ts)) as [td|] eqn:E; [|discriminate].
      eapply ac_map; eauto. intros k x Hx. rewrite check_entries_ok in H1.
      eapply IH; [|exact (H1 _ _ Hx)].
      inversion Hwf as [w Hw1 Hw2| |l0 Hn Hl]; subst; [now specialize (Hw2 l)|].
      rewrite Forall_forall in Hl. apply (Hl (k, x) Hx).
  - rewrite step_struct in H by exact Hk. unfold validate_struct in H. destruct v; try discriminate.
    apply bind_ok in H. destruct H as [H1 H2]. rewrite check_keys_ok in H1. rewrite check_fields_ok in H2.
    inversion Hwf as [w Hw1 Hw2| |l0 Hn Hl]; subst; [now specialize (Hw2 l)|].
    apply ac_struct; [exact Hk| |].
    + split; [exact H1|]. intros fd Hf Hr. specialize (H2 fd Hf).
      destruct (assoc (fd_name fd) l) as [x|] eqn:E; [|congruence].
      apply assoc_In in E. change (fd_name fd) with (fst (fd_name fd, x)). now apply in_map.
    + intros fd x Hf Hx. specialize (H2 fd Hf). rewrite (assoc_NoDup _ _ _ Hn Hx) in H2.
      eapply IH; [|exact H2]. rewrite Forall_forall in Hl. apply (Hl (fd_name fd, x) Hx).
  - rewrite step_enum in H by exact Hk. apply validate_enum_ok in H.
    destruct H as (s & H1 & H2 & H3). eapply ac_enum; eauto.
  - now apply ac_any.
Qed.

(** ** Completeness *)
Definition eventually (ts : typespec) (v : value) : Prop :=
  exists N, forall f ctx, N <= f -> validate_spec X m f ctx ts v = Ok tt.

Lemma eventually_list {A} (P : A -> nat -> Prop) (l : list A) :
  (forall x n n', n <= n' -> P x n -> P x n') ->
  (forall x, In x l -> exists N, P x N) -> exists N, forall x, In x l -> P x N.
Proof.
  intros Hmono. induction l as [|a l IH]; intros H; [exists 0; intros x []|].
  destruct IH as [N HN]; [intros x Hx; apply H; now right|].
  destruct (H a (or_introl eq_refl)) as [M HM].
  exists (Nat.max N M). intros x [<-|Hx]; [apply (Hmono a M); [lia|exact HM]|apply (Hmono x N); [lia|auto]].
Qed.

Lemma eventually_all (l : list (typespec * value)) :
  (forall p, In p l -> eventually (fst p) (snd p)) ->
  exists N, forall p, In p l -> forall f ctx, N <= f -> validate_spec X m f ctx (fst p) (snd p) = Ok tt.
Proof.
  intro H. apply (eventually_list (fun p N => forall f ctx, N <= f -> validate_spec X m f ctx (fst p) (snd p) = Ok tt)).
  - intros x n n' Hle HP f ctx Hf. apply HP. lia.
  - exact H.
Qed.

Lemma complete_aux ts v : accepts X sch ts v -> vwf v -> eventually ts v.
Proof.
  assert (Hfind : forall n t, defines sch n t -> exists td, find_type m n = Some td /\ td_spec td = t).
  { intros n t Hd. now apply (find_type_defines sch m Hm). }
  assert (Hone : forall ts v, (forall f ctx, validate_step X m (validate_spec X m f) ctx ts v = Ok tt) -> eventually ts v).
  { intros ts0 v0 H0. exists 1. intros [|f] ctx Hf; [lia|]. apply H0. }
  induction 1 as
    [ts t Hk | ts s t Hk Ht Hr | ts v s Hk Hs Hsz Hv Hp | ts l Hk [Hc1 Hc2] Hf IH
    | ts ts' l Hk Hany Hd Hx IH Hsz | ts l Hk Hany Hsz
    | ts ts' l Hk Hany Hd Hx IH Hsz | ts l Hk Hany Hsz
    | ts d Hk Hw | ts b Hk | ts b Hk | ts v s Hk Hs Hne He
    | ts s Hk | ts v s Hk Hs Hu
    | ts a u d ts1 ts2 Hk Hsp Hlen Hdec Hd1 Ha1 IH1 Hd2 Ha2 IH2
    | ts v Hk | ts v Hk | ts ts' v [Hk Hd] Ha IH ]; intro Hwf.
  - apply Hone. intros f ctx. rewrite step_time by exact Hk. reflexivity.
  - apply Hone. intros f ctx. rewrite step_time by exact Hk. apply validate_timestamp_ok. right. eauto.
  - apply Hone. intros f ctx. rewrite step_string by exact Hk. apply validate_string_ok. eauto.
  - inversion Hwf as [w Hw1 Hw2| |l0 Hn Hl]; subst; [now specialize (Hw2 l)|].
    rewrite Forall_forall in Hl.
    destruct (eventually_list (fun fx N => match fx with (fd, x) =>
               forall f ctx, N <= f -> validate_spec X m f ctx (fd_spec fd) x = Ok tt end)
               (flat_map (fun fd => match assoc (fd_name fd) l with Some x => [(fd, x)] | None => [] end) (ts_fields ts)))
      as [N HN].
    + intros [fd x] n n' Hle HP f ctx Hff. apply HP. lia.
    + intros [fd x] Hin. apply in_flat_map in Hin. destruct Hin as (fd' & Hfd & Hin).
      destruct (assoc (fd_name fd') l) as [y|] eqn:E; [|destruct Hin].
      destruct Hin as [Hin|[]]. injection Hin as -> ->. apply assoc_In in E.
      exact (IH fd x Hfd E (Hl (fd_name fd, x) E)).
    + exists (S N). intros [|f] ctx Hge; [lia|]. cbn [validate_spec]. rewrite step_struct by exact Hk.
      unfold validate_struct. apply bind_ok. split; [now apply check_keys_ok|].
      apply check_fields_ok. intros fd Hfd. destruct (assoc (fd_name fd) l) as [x|] eqn:E.
      * apply (HN (fd, x)); [|lia]. apply in_flat_map. exists fd. split; [exact Hfd|]. rewrite E. now left.
      * destruct (fd_required fd) eqn:Er; [|reflexivity]. exfalso. apply assoc_None in E. apply E.
        exact (Hc2 fd Hfd Er).
  - inversion Hwf as [w Hw1 Hw2|l0 Hl|]; subst; [now specialize (Hw1 l)|]. rewrite Forall_forall in Hl.
    destruct (Hfind _ _ Hd) as (td & Et & <-).
    destruct (eventually_all (map (fun x => (td_spec td, x)) l)) as [N HN].
    { intros p Hp. apply in_map_iff in Hp. destruct Hp as (x & <- & Hin). simpl. auto. }
    exists (S N). intros [|f] ctx Hge; [lia|]. cbn [validate_spec]. rewrite step_array by exact Hk.
    unfold validate_array. apply seqb_neq in Hany. rewrite Hany, Et. apply bind_ok.
    split; [|now apply check_sizes_ok]. apply check_items_ok. intros j x Hj.
    apply (HN (td_spec td, x)); [|lia]. apply in_map_iff. exists x. split; [reflexivity|]. eapply nth_error_In; eauto.
  - apply Hone. intros f ctx. rewrite step_array by exact Hk. unfold validate_array.
    apply seqb_eq in Hany. rewrite Hany. apply bind_ok. split; [reflexivity|now apply check_sizes_ok].
  - inversion Hwf as [w Hw1 Hw2| |l0 Hn Hl]; subst; [now specialize (Hw2 l)|]. rewrite Forall_forall in Hl.
    destruct (Hfind _ _ Hd) as (td & Et & <-).
    destruct (eventually_all (map (fun kx => (td_spec td, snd kx)) l)) as [N HN].
    { intros p Hp. apply in_map_iff in Hp. destruct Hp as ((k & x) & <- & Hin). simpl.
      apply (IH k x Hin). apply (Hl (k, x) Hin). }
    exists (S N). intros [|f] ctx Hge; [lia|]. cbn [validate_spec]. rewrite step_map by exact Hk.
    unfold validate_map. apply seqb_neq in Hany. rewrite Hany, Et. apply bind_ok.
    split; [|now apply check_sizes_ok]. apply check_entries_ok. intros k x Hj.
    apply (HN (td_spec td, x)); [|lia]. apply in_map_iff. exists (k, x). auto.
  - apply Hone. intros f ctx. rewrite step_map by exact Hk. unfold validate_map.
    apply seqb_eq in Hany. rewrite Hany. apply bind_ok. split; [reflexivity|now apply check_sizes_ok].
  - apply Hone. intros f ctx. rewrite step_number by exact Hk. apply validate_number_ok; eauto.
  - apply Hone. intros f ctx. now rewrite step_bool by exact Hk.
  - apply Hone. intros f ctx. now rewrite step_bool by exact Hk.
  - apply Hone. intros f ctx. rewrite step_enum by exact Hk. apply validate_enum_ok. eauto.
  - apply Hone. intros f ctx. rewrite step_uuid by exact Hk. apply validate_uuid_ok. eauto.
  - apply Hone. intros f ctx. rewrite step_uuid by exact Hk. apply validate_uuid_ok. eauto.
  - destruct (Hfind _ _ Hd1) as (td1 & Et1 & <-). destruct (Hfind _ _ Hd2) as (td2 & Et2 & <-).
    destruct IH1 as [N1 H1]; [constructor; discriminate|]. destruct IH2 as [N2 H2]; [constructor; discriminate|].
    exists (S (Nat.max N1 N2)). intros [|f] ctx Hge; [lia|]. cbn [validate_spec]. rewrite step_unit by exact Hk.
    unfold validate_unitvalue.
    rewrite (proj2 (cut_Some " " (a +++ String " " u) a u)) by auto.
    replace (3 <=? String.length a) with true by (symmetry; now apply Nat.leb_le).
    rewrite Hdec. unfold validate_named. rewrite Et1, Et2. apply bind_ok. split; [apply H1; lia|apply H2; lia].
  - apply Hone. intros f ctx. now rewrite step_bytes by exact Hk.
  - apply Hone. intros f ctx. now rewrite step_any by exact Hk.
  - destruct (IH Hwf) as [N HN]. destruct (Hfind _ _ Hd) as (td & Et & <-).
    exists (S N). intros [|f] ctx Hge; [lia|]. cbn [validate_spec]. rewrite step_ref by exact Hk.
    rewrite Et. apply HN. lia.
Qed.

Lemma validate_spec_iff ts v ctx : vwf v ->
  ((exists f, validate_spec X m f ctx ts v = Ok tt) <-> accepts X sch ts v).
Proof.
  intro Hwf. split.
  - intros [f Hf]. eapply sound_aux; eauto.
  - intro Ha. destruct (complete_aux _ _ Ha Hwf) as [N HN]. exists N. apply HN. lia.
Qed.

Lemma validate_iff n v ctx : vwf v ->
  ((exists f, validate X m f ctx n v = Ok tt) <-> exists ts, defines sch n ts /\ accepts X sch ts v).
Proof.
  intro Hwf. unfold validate, validate_named. split.
  - intros [f Hf]. destruct (find_type m n) as [td|] eqn:E; [|discriminate].
    exists (td_spec td). split.
    + exists td. split; [now apply (find_type_spec sch m Hm)|reflexivity].
    + eapply sound_aux; eauto.
  - intros (ts & Hd & Ha). apply (find_type_defines sch m Hm) in Hd. destruct Hd as (td & Et & <-).
    rewrite Et. apply validate_spec_iff; assumption.
Qed.

(** The outcome is never a crash. *)
Lemma no_panic f : forall ctx ts v, validate_spec X m f ctx ts v <> Panic.
Proof.
  induction f as [|f IH]; intros ctx ts v; [discriminate|]. cbn [validate_spec].
  assert (Hb : forall a b : vres, a <> Panic -> b <> Panic -> rbind a (fun _ => b) <> Panic).
  { intros [[]|e| |] b Ha Hb; simpl; congruence. }
  assert (Hnamed : forall c n x, validate_named m (validate_spec X m f) c n x <> Panic).
  { intros c n x. unfold validate_named. destruct (find_type m n); [apply IH|discriminate]. }
  assert (Hkeys : forall c t l, check_keys c t l <> Panic).
  { intros c t l. induction l as [|[k x] l IHl]; simpl; [discriminate|]. destruct (is_struct_field t k); [exact IHl|discriminate]. }
  assert (Hfields : forall c fs l, check_fields (validate_spec X m f) c fs l <> Panic).
  { intros c fs l. induction fs as [|fd fs IHl]; simpl; [discriminate|].
    destruct (assoc (fd_name fd) l); [apply Hb; auto|]. destruct (fd_required fd); [discriminate|exact IHl]. }
  assert (Hitems : forall c t l i, check_items (validate_spec X m f) c t i l <> Panic).
  { intros c t l. induction l as [|x l IHl]; intros i; simpl; [discriminate|]. apply Hb; auto. }
  assert (Hentries : forall c t l, check_entries (validate_spec X m f) c t l <> Panic).
  { intros c t l. induction l as [|[k x] l IHl]; simpl; [discriminate|]. apply Hb; auto. }
  assert (Hsizes : forall c t n, check_sizes c t n <> Panic).
  { intros c t n. unfold check_sizes. destruct (size_gt _ _); [discriminate|]. destruct (size_lt _ _); discriminate. }
  destruct (kind_dec ts) as [Hk|Hk].
  2:{ rewrite step_ref by exact Hk. destruct (find_type m (ts_type ts)); [apply IH|discriminate]. }
  simpl in Hk. repeat (destruct Hk as [Hk|Hk]; [symmetry in Hk|]); try contradiction.
  all: try (rewrite step_number by (rewrite Hk; simpl; tauto); unfold validate_number; destruct v; try discriminate;
            destruct (number_limits ts) as [lo hi];
            destruct (match lo with Some _ => _ | None => _ end); [discriminate|];
            destruct (match hi with Some _ => _ | None => _ end); discriminate).
  - rewrite step_bool by exact Hk. destruct v; discriminate.
  - rewrite step_bytes by exact Hk. discriminate.
  - rewrite step_string by exact Hk. unfold validate_string.
    destruct v; try discriminate; (destruct (size_lt _ _); [discriminate|]; destruct (size_gt _ _); [discriminate|];
      destruct (ts_values ts) as [vs|]; [destruct (str_mem s vs); discriminate|];
      destruct (ts_pattern ts =?s ""); [discriminate|]; destruct (x_regex X (ts_pattern ts)) as [g|]; [|discriminate];
      destruct (g s); discriminate).
  - rewrite step_time by exact Hk. unfold validate_timestamp. destruct v; try discriminate.
    destruct (parse_timestamp _ _ s); discriminate.
  - rewrite step_unit by exact Hk. unfold validate_unitvalue. destruct v; try discriminate.
    destruct (cut " " s) as [[a u]|]; [|discriminate]. destruct (3 <=? String.length a); [|discriminate].
    destruct (x_decimal X a); [|discriminate]. apply Hb; apply Hnamed.
  - rewrite step_uuid by exact Hk. unfold validate_uuid. destruct v; try discriminate; destruct (_ && _); discriminate.
  - rewrite step_array by exact Hk. unfold validate_array. destruct v; try discriminate. apply Hb; [|auto].
    destruct (_ =?s _); [discriminate|]. destruct (find_type m _); [auto|discriminate].
  - rewrite step_map by exact Hk. unfold validate_map. destruct v; try discriminate. apply Hb; [|auto].
    destruct (_ =?s _); [discriminate|]. destruct (find_type m _); [auto|discriminate].
  - rewrite step_struct by exact Hk. unfold validate_struct. destruct v; try discriminate. apply Hb; auto.
  - rewrite step_enum by exact Hk. unfold validate_enum. destruct (_ && _); discriminate.
  - rewrite step_any by exact Hk. discriminate.
Qed.

(** ** Termination when names end *)
Definition finishes (ts : typespec) (v : value) : Prop :=
  exists N, forall f ctx, N <= f -> validate_spec X m f ctx ts v <> OutOfFuel.

Lemma bind_fin (a b : vres) : a <> OutOfFuel -> (a = Ok tt -> b <> OutOfFuel) ->
  rbind a (fun _ => b) <> OutOfFuel.
Proof. intros Ha Hb. destruct a as [[]|e| |]; simpl; try congruence. auto. Qed.

Lemma refers_leads ts0 ts ts' : leads sch ts0 ts -> refers sch ts ts' -> leads sch ts0 ts'.
Proof.
  intros H Hr. induction H as [ts|ts t1 t2 H1 H2 IH|ts fd t2 H1 H2 H3 IH|ts t1 t2 H1 H2 H3 H4 IH|ts t1 t2 H1 H2 H3 IH].
  - eapply le_ref; [exact Hr|constructor].
  - eapply le_ref; eauto.
  - eapply le_field; eauto.
  - eapply le_item; eauto.
  - eapply le_unit; eauto.
Qed.
Lemma leads_trans a b c : leads sch a b -> leads sch b c -> leads sch a c.
Proof.
  intros H Hr. induction H as [ts|ts t1 t2 H1 H2 IH|ts fd t2 H1 H2 H3 IH|ts t1 t2 H1 H2 H3 H4 IH|ts t1 t2 H1 H2 H3 IH].
  - exact Hr.
  - eapply le_ref; eauto.
  - eapply le_field; eauto.
  - eapply le_item; eauto.
  - eapply le_unit; eauto.
Qed.

(** The kinds for which one step is enough whatever the rest. *)
Lemma leaf_finishes ts v : In (ts_type ts) ["Bool"; "Int8"; "Int16"; "Int32"; "Int64"; "Float32"; "Float64"; "Decimal";
    "Bytes"; "String"; "Timestamp"; "UUID"; "Enum"; "Any"] -> finishes ts v.
Proof.
  intro Hk. exists 1. intros [|f] ctx Hf; [lia|]. cbn [validate_spec]. clear Hf.
  simpl in Hk. repeat (destruct Hk as [Hk|Hk]; [symmetry in Hk|]); try contradiction.
  all: try (rewrite step_number by (rewrite Hk; simpl; tauto); unfold validate_number; destruct v; try discriminate;
            destruct (number_limits ts) as [lo hi];
            destruct (match lo with Some _ => _ | None => _ end); [discriminate|];
            destruct (match hi with Some _ => _ | None => _ end); discriminate).
  - rewrite step_bool by exact Hk. destruct v; discriminate.
  - rewrite step_bytes by exact Hk. discriminate.
  - rewrite step_string by exact Hk. unfold validate_string.
    destruct v; try discriminate; (destruct (size_lt _ _); [discriminate|]; destruct (size_gt _ _); [discriminate|];
      destruct (ts_values ts) as [vs|]; [destruct (str_mem s vs); discriminate|];
      destruct (ts_pattern ts =?s ""); [discriminate|]; destruct (x_regex X (ts_pattern ts)) as [g|]; [|discriminate];
      destruct (g s); discriminate).
  - rewrite step_time by exact Hk. unfold validate_timestamp. destruct v; try discriminate.
    destruct (parse_timestamp _ _ s); discriminate.
  - rewrite step_uuid by exact Hk. unfold validate_uuid. destruct v; try discriminate; destruct (_ && _); discriminate.
  - rewrite step_enum by exact Hk. unfold validate_enum. destruct (_ && _); discriminate.
  - rewrite step_any by exact Hk. discriminate.
Qed.

(** Values that are no container and no pointer-to-string: only references recurse. *)
Definition simple_value (v : value) : Prop :=
  match v with VArr _ | VMap _ | VPStr _ => False | _ => True end.

Lemma kinds_split ts : In (ts_type ts) kinds ->
  In (ts_type ts) ["Bool"; "Int8"; "Int16"; "Int32"; "Int64"; "Float32"; "Float64"; "Decimal";
    "Bytes"; "String"; "Timestamp"; "UUID"; "Enum"; "Any"]
  \/ ts_type ts = "UnitValue" \/ ts_type ts = "Array" \/ ts_type ts = "Map" \/ ts_type ts = "Struct".
Proof. simpl. intuition. Qed.

Lemma ref_finishes ts v : names_end sch ts ->
  (forall ts', leads sch ts ts' -> In (ts_type ts') kinds -> finishes ts' v) -> finishes ts v.
Proof.
  intros Hacc. induction Hacc as [ts _ IH]. intro Hk.
  destruct (kind_dec ts) as [Hin|Hin]; [apply Hk; [constructor|exact Hin]|].
  destruct (find_type m (ts_type ts)) as [td|] eqn:E.
  - assert (Hr : refers sch ts (td_spec td)).
    { split; [exact Hin|]. exists td. split; [now apply (find_type_spec sch m Hm)|reflexivity]. }
    destruct (IH _ Hr) as [N HN].
    { intros ts' Hl. apply Hk. eapply le_ref; eauto. }
    exists (S N). intros [|f] ctx Hf; [lia|]. cbn [validate_spec]. rewrite step_ref by exact Hin.
    rewrite E. apply HN. lia.
  - exists 1. intros [|f] ctx Hf; [lia|]. cbn [validate_spec]. rewrite step_ref by exact Hin. rewrite E. discriminate.
Qed.

Definition all_end (ts : typespec) : Prop := forall ts', leads sch ts ts' -> names_end sch ts'.

Lemma all_end_leads ts ts' : all_end ts -> leads sch ts ts' -> all_end ts'.
Proof. intros H Hl t Ht. apply H. eapply leads_trans; eauto. Qed.

Lemma simple_finishes v : simple_value v -> forall ts, all_end ts -> finishes ts v.
Proof.
  intros Hs ts Hall. apply ref_finishes; [apply Hall; constructor|].
  intros ts' Hl Hk. apply kinds_split in Hk.
  destruct Hk as [Hk|[Hk|[Hk|[Hk|Hk]]]]; [now apply leaf_finishes| | | |];
    exists 1; intros [|f] ctx Hf; try lia; cbn [validate_spec].
  - rewrite step_unit by exact Hk. destruct v; try discriminate; destruct Hs.
  - rewrite step_array by exact Hk. destruct v; try discriminate; destruct Hs.
  - rewrite step_map by exact Hk. destruct v; try discriminate; destruct Hs.
  - rewrite step_struct by exact Hk. destruct v; try discriminate; destruct Hs.
Qed.

Lemma finishes_all (l : list (typespec * value)) :
  (forall p, In p l -> finishes (fst p) (snd p)) ->
  exists N, forall p, In p l -> forall f ctx, N <= f -> validate_spec X m f ctx (fst p) (snd p) <> OutOfFuel.
Proof.
  intro H. apply (eventually_list (fun p N => forall f ctx, N <= f -> validate_spec X m f ctx (fst p) (snd p) <> OutOfFuel)).
  - intros x n n' Hle HP f ctx Hf. apply HP. lia.
  - exact H.
Qed.

Lemma check_items_fin rec ctx t l : forall i,
  (forall x c, In x l -> rec c t x <> OutOfFuel) -> check_items rec ctx t i l <> OutOfFuel.
Proof.
  induction l as [|x l IH]; intros i H; simpl; [discriminate|].
  apply bind_fin; [apply H; now left|]. intros _. apply IH. intros y c Hy. apply H. now right.
Qed.
Lemma check_entries_fin rec ctx t l :
  (forall k x c, In (k, x) l -> rec c t x <> OutOfFuel) -> check_entries rec ctx t l <> OutOfFuel.
Proof.
  induction l as [|[k x] l IH]; intros H; simpl; [discriminate|].
  apply bind_fin; [apply (H k); now left|]. intros _. apply IH. intros k' y c Hy. apply (H k'). now right.
Qed.
Lemma check_keys_fin ctx ts l : check_keys ctx ts l <> OutOfFuel.
Proof. induction l as [|[k x] l IH]; simpl; [discriminate|]. destruct (is_struct_field ts k); [exact IH|discriminate]. Qed.
Lemma check_sizes_fin ctx ts n : check_sizes ctx ts n <> OutOfFuel.
Proof. unfold check_sizes. destruct (size_gt _ _); [discriminate|]. destruct (size_lt _ _); discriminate. Qed.
Lemma check_fields_fin rec ctx fs l :
  (forall fd x c, In fd fs -> In (fd_name fd, x) l -> rec c (fd_spec fd) x <> OutOfFuel) ->
  check_fields rec ctx fs l <> OutOfFuel.
Proof.
  induction fs as [|fd fs IH]; intros H; simpl; [discriminate|].
  destruct (assoc (fd_name fd) l) as [x|] eqn:E.
  - apply bind_fin; [apply H; [now left|now apply assoc_In]|]. intros _. apply IH.
    intros g y c Hg. apply H. now right.
  - destruct (fd_required fd); [discriminate|]. apply IH. intros g y c Hg. apply H. now right.
Qed.

Lemma terminates v : forall ts, all_end ts -> finishes ts v.
Proof.
  induction v as [| | | |s| | | | | | | |l IH|l IH] using value_ind';
    try (apply simple_finishes; exact I); intros ts Hall.
  - (* a pointer to string: the parts of a unit value are simple *)
    apply ref_finishes; [apply Hall; constructor|]. intros ts' Hl Hk. apply kinds_split in Hk.
    destruct Hk as [Hk|[Hk|[Hk|[Hk|Hk]]]]; [now apply leaf_finishes| | | |].
    + destruct (cut " " s) as [[a u]|] eqn:Ec.
      2:{ exists 1. intros [|f] ctx Hf; [lia|]. cbn [validate_spec]. rewrite step_unit by exact Hk.
          unfold validate_unitvalue. rewrite Ec. discriminate. }
      destruct (x_decimal X a) as [d|] eqn:Ed.
      2:{ exists 1. intros [|f] ctx Hf; [lia|]. cbn [validate_spec]. rewrite step_unit by exact Hk.
          unfold validate_unitvalue. rewrite Ec, Ed. destruct (3 <=? String.length a); discriminate. }
      assert (Hn : forall n x, simple_value x -> ts_value ts' = n \/ ts_unit ts' = n ->
                 exists N, forall f ctx, N <= f -> validate_named m (validate_spec X m f) ctx n x <> OutOfFuel).
      { intros n x Hx Hor. unfold validate_named. destruct (find_type m n) as [td|] eqn:E; [|exists 0; discriminate].
        assert (Hd : defines sch n (td_spec td)).
        { exists td. split; [now apply (find_type_spec sch m Hm)|reflexivity]. }
        destruct (simple_finishes x Hx (td_spec td)) as [N HN].
        { apply (all_end_leads ts); [exact Hall|]. eapply leads_trans; [exact Hl|].
          eapply le_unit; [exact Hk| |constructor]. destruct Hor as [<-|<-]; auto. }
        exists N. intros f ctx Hf. apply HN. exact Hf. }
      destruct (Hn (ts_value ts') (VDec d) I (or_introl eq_refl)) as [N1 H1].
      destruct (Hn (ts_unit ts') (VStr u) I (or_intror eq_refl)) as [N2 H2].
      exists (S (Nat.max N1 N2)). intros [|f] ctx Hf; [lia|]. cbn [validate_spec]. rewrite step_unit by exact Hk.
      unfold validate_unitvalue. rewrite Ec, Ed. destruct (3 <=? String.length a); [|discriminate].
      apply bind_fin; [apply H1; lia|intros _; apply H2; lia].
    + exists 1; intros [|f] ctx Hf; [lia|]. cbn [validate_spec]. rewrite step_array by exact Hk. discriminate.
    + exists 1; intros [|f] ctx Hf; [lia|]. cbn [validate_spec]. rewrite step_map by exact Hk. discriminate.
    + exists 1; intros [|f] ctx Hf; [lia|]. cbn [validate_spec]. rewrite step_struct by exact Hk. discriminate.
  - (* array *)
    rewrite Forall_forall in IH.
    apply ref_finishes; [apply Hall; constructor|]. intros ts' Hl Hk. apply kinds_split in Hk.
    destruct Hk as [Hk|[Hk|[Hk|[Hk|Hk]]]]; [now apply leaf_finishes| | | |].
    + exists 1; intros [|f] ctx Hf; [lia|]. cbn [validate_spec]. rewrite step_unit by exact Hk. discriminate.
    + destruct (ts_items ts' =?s "Any") eqn:Ea.
      { exists 1; intros [|f] ctx Hf; [lia|]. cbn [validate_spec]. rewrite step_array by exact Hk.
        unfold validate_array. rewrite Ea. apply check_sizes_fin. }
      destruct (find_type m (ts_items ts')) as [td|] eqn:E.
      2:{ exists 1; intros [|f] ctx Hf; [lia|]. cbn [validate_spec]. rewrite step_array by exact Hk.
          unfold validate_array. rewrite Ea, E. discriminate. }
      assert (Hd : defines sch (ts_items ts') (td_spec td)).
      { exists td. split; [now apply (find_type_spec sch m Hm)|reflexivity]. }
      destruct (finishes_all (map (fun x => (td_spec td, x)) l)) as [N HN].
      { intros p Hp. apply in_map_iff in Hp. destruct Hp as (x & <- & Hin). simpl. apply IH; [exact Hin|].
        apply (all_end_leads ts); [exact Hall|]. eapply leads_trans; [exact Hl|].
        eapply le_item; [rewrite Hk; simpl; auto|now apply seqb_neq|exact Hd|constructor]. }
      exists (S N). intros [|f] ctx Hf; [lia|]. cbn [validate_spec]. rewrite step_array by exact Hk.
      unfold validate_array. rewrite Ea, E. apply bind_fin; [|intros _; apply check_sizes_fin].
      apply check_items_fin. intros x c Hx. apply (HN (td_spec td, x)); [|lia]. apply in_map_iff. eauto.
    + exists 1; intros [|f] ctx Hf; [lia|]. cbn [validate_spec]. rewrite step_map by exact Hk. discriminate.
    + exists 1; intros [|f] ctx Hf; [lia|]. cbn [validate_spec]. rewrite step_struct by exact Hk. discriminate.
  - (* map *)
    rewrite Forall_forall in IH.
    apply ref_finishes; [apply Hall; constructor|]. intros ts' Hl Hk. apply kinds_split in Hk.
    destruct Hk as [Hk|[Hk|[Hk|[Hk|Hk]]]]; [now apply leaf_finishes| | | |].
    + exists 1; intros [|f] ctx Hf; [lia|]. cbn [validate_spec]. rewrite step_unit by exact Hk. discriminate.
    + exists 1; intros [|f] ctx Hf; [lia|]. cbn [validate_spec]. rewrite step_array by exact Hk. discriminate.
    + destruct (ts_items ts' =?s "Any") eqn:Ea.
      { exists 1; intros [|f] ctx Hf; [lia|]. cbn [validate_spec]. rewrite step_map by exact Hk.
        unfold validate_map. rewrite Ea. apply check_sizes_fin. }
      destruct (find_type m (ts_items ts')) as [td|] eqn:E.
      2:{ exists 1; intros [|f] ctx Hf; [lia|]. cbn [validate_spec]. rewrite step_map by exact Hk.
          unfold validate_map. rewrite Ea, E. discriminate. }
      assert (Hd : defines sch (ts_items ts') (td_spec td)).
      { exists td. split; [now apply (find_type_spec sch m Hm)|reflexivity]. }
      destruct (finishes_all (map (fun kx => (td_spec td, snd kx)) l)) as [N HN].
      { intros p Hp. apply in_map_iff in Hp. destruct Hp as ([k x] & <- & Hin). simpl. apply (IH (k, x) Hin).
        apply (all_end_leads ts); [exact Hall|]. eapply leads_trans; [exact Hl|].
        eapply le_item; [rewrite Hk; simpl; auto|now apply seqb_neq|exact Hd|constructor]. }
      exists (S N). intros [|f] ctx Hf; [lia|]. cbn [validate_spec]. rewrite step_map by exact Hk.
      unfold validate_map. rewrite Ea, E. apply bind_fin; [|intros _; apply check_sizes_fin].
      apply check_entries_fin. intros k x c Hx. apply (HN (td_spec td, x)); [|lia]. apply in_map_iff. exists (k, x). auto.
    + destruct (finishes_all (flat_map (fun fd => map (fun kx => (fd_spec fd, snd kx)) l) (ts_fields ts'))) as [N HN].
      { intros p Hp. apply in_flat_map in Hp. destruct Hp as (fd & Hfd & Hp).
        apply in_map_iff in Hp. destruct Hp as ([k x] & <- & Hin). simpl. apply (IH (k, x) Hin).
        apply (all_end_leads ts); [exact Hall|]. eapply leads_trans; [exact Hl|].
        eapply le_field; [exact Hk|exact Hfd|constructor]. }
      exists (S N). intros [|f] ctx Hf; [lia|]. cbn [validate_spec]. rewrite step_struct by exact Hk.
      unfold validate_struct. apply bind_fin; [apply check_keys_fin|]. intros _.
      apply check_fields_fin. intros fd x c Hfd Hx. apply (HN (fd_spec fd, x)); [|lia].
      apply in_flat_map. exists fd. split; [exact Hfd|]. apply in_map_iff. exists (fd_name fd, x). auto.
Qed.

(** ** Divergence on a cycle of names *)
Inductive chain : nat -> typespec -> Prop :=
| ch_0 ts : chain 0 ts
| ch_S n ts ts' : refers sch ts ts' -> chain n ts' -> chain (S n) ts.

Lemma chain_diverges n : forall ts ctx v, chain n ts -> validate_spec X m n ctx ts v = OutOfFuel.
Proof.
  induction n as [|n IH]; intros ts ctx v H; [reflexivity|].
  inversion H as [|k t t' [Hk Hd] Hc]; subst. cbn [validate_spec]. rewrite step_ref by exact Hk.
  apply (find_type_defines sch m Hm) in Hd. destruct Hd as (td & Et & <-). rewrite Et. now apply IH.
Qed.

Lemma cycle_diverges ts : refers sch ts ts -> forall f ctx v, validate_spec X m f ctx ts v = OutOfFuel.
Proof.
  intros Hr f ctx v. apply chain_diverges. induction f as [|f IH]; [constructor|]. eapply ch_S; eauto.
Qed.

Lemma union_refers_itself : refers sch (ts_of "Union") (ts_of "Union").
Proof.
  split.
  - simpl. intuition discriminate.
  - exists (mkTD "Union" "" [] (ts_of "Union")). split; [|reflexivity]. left. split; [simpl; tauto|reflexivity].
Qed.

Lemma union_diverges f ctx v : validate X m f ctx "Union" v = OutOfFuel.
Proof.
  unfold validate, validate_named.
  assert (E : find_type m "Union" = Some (mkTD "Union" "" [] (ts_of "Union"))).
  { apply (find_type_spec sch m Hm). left. split; [simpl; tauto|reflexivity]. }
  rewrite E. apply cycle_diverges. apply union_refers_itself.
Qed.

(** ** References are transparent *)
Definition returns (ctx : list step) (ts : typespec) (v : value) (r : vres) : Prop :=
  r <> OutOfFuel /\ exists f, validate_spec X m f ctx ts v = r.

Lemma returns_fun ctx ts v r1 r2 : returns ctx ts v r1 -> returns ctx ts v r2 -> r1 = r2.
Proof.
  intros [Hn1 [f1 H1]] [Hn2 [f2 H2]].
  assert (E1 := fuel_mono f1 (Nat.max f1 f2) ctx ts v ltac:(lia) ltac:(congruence)).
  assert (E2 := fuel_mono f2 (Nat.max f1 f2) ctx ts v ltac:(lia) ltac:(congruence)). congruence.
Qed.

Lemma refers_returns ctx ts ts' v r : refers sch ts ts' -> (returns ctx ts v r <-> returns ctx ts' v r).
Proof.
  intros [Hk Hd]. apply (find_type_defines sch m Hm) in Hd. destruct Hd as (td & Et & <-).
  unfold returns. split; intros [Hn [f Hf]]; (split; [exact Hn|]).
  - destruct f as [|f]; [simpl in Hf; congruence|]. exists f. cbn [validate_spec] in Hf.
    rewrite step_ref in Hf by exact Hk. now rewrite Et in Hf.
  - exists (S f). cbn [validate_spec]. rewrite step_ref by exact Hk. now rewrite Et.
Qed.

Inductive refers_chain : nat -> typespec -> typespec -> Prop :=
| rc_0 ts : refers_chain 0 ts ts
| rc_S n ts ts1 ts2 : refers sch ts ts1 -> refers_chain n ts1 ts2 -> refers_chain (S n) ts ts2.

Lemma chain_returns n ctx ts ts' v r : refers_chain n ts ts' ->
  (returns ctx ts v r <-> returns ctx ts' v r).
Proof.
  induction 1 as [ts|n ts ts1 ts2 H1 H2 IH]; [tauto|]. rewrite (refers_returns _ _ _ _ _ H1). exact IH.
Qed.

Lemma unknown_returns ctx ts v : ~ In (ts_type ts) kinds -> (forall ts', ~ defines sch (ts_type ts) ts') ->
  returns ctx ts v (fail_at ctx (ENoSuchType (ts_type ts))).
Proof.
  intros Hk Hd. split; [discriminate|]. exists 1. cbn [validate_spec]. rewrite step_ref by exact Hk.
  destruct (find_type m (ts_type ts)) as [td|] eqn:E; [|reflexivity].
  exfalso. apply (Hd (td_spec td)). apply (find_type_defines sch m Hm). eauto.
Qed.

(** ** Positions *)
Lemma accepts_kind ts v : accepts X sch ts v -> forall k, ts_type ts = k -> In k kinds ->
  ~ exists ts', refers sch ts ts' /\ accepts X sch ts' v /\ In (ts_type ts) kinds.
Proof. intros _ k _ _ (ts' & [H _] & _ & H'). contradiction. Qed.

Lemma accepts_struct_inv ts v : ts_type ts = "Struct" -> accepts X sch ts v ->
  exists l, v = VMap l /\ closed_object ts l /\
    forall f x, In f (ts_fields ts) -> In (fd_name f, x) l -> accepts X sch (fd_spec f) x.
Proof.
  intros Hk H. inversion H; subst; try congruence.
  - eauto.
  - rewrite Hk in *. simpl in *. intuition discriminate.
  - match goal with R : refers _ _ _ |- _ => destruct R as [R _]; rewrite Hk in R; exfalso; apply R; simpl; tauto end.
Qed.
Lemma accepts_array_inv ts v : ts_type ts = "Array" -> accepts X sch ts v ->
  exists l, v = VArr l /\ sizes_ok ts (length l) /\
    (ts_items ts = "Any" \/ exists ts', ts_items ts <> "Any" /\ defines sch (ts_items ts) ts' /\ forall x, In x l -> accepts X sch ts' x).
Proof.
  intros Hk H. inversion H; subst; try congruence.
  - eexists. split; [reflexivity|]. split; [assumption|]. right. eauto.
  - eexists. split; [reflexivity|]. split; [assumption|]. now left.
  - rewrite Hk in *. simpl in *. intuition discriminate.
  - match goal with R : refers _ _ _ |- _ => destruct R as [R _]; rewrite Hk in R; exfalso; apply R; simpl; tauto end.
Qed.
Lemma accepts_map_inv ts v : ts_type ts = "Map" -> accepts X sch ts v ->
  exists l, v = VMap l /\ sizes_ok ts (length l) /\
    (ts_items ts = "Any" \/ exists ts', ts_items ts <> "Any" /\ defines sch (ts_items ts) ts' /\ forall k x, In (k, x) l -> accepts X sch ts' x).
Proof.
  intros Hk H. inversion H; subst; try congruence.
  - eexists. split; [reflexivity|]. split; [assumption|]. right. eauto.
  - eexists. split; [reflexivity|]. split; [assumption|]. now left.
  - rewrite Hk in *. simpl in *. intuition discriminate.
  - match goal with R : refers _ _ _ |- _ => destruct R as [R _]; rewrite Hk in R; exfalso; apply R; simpl; tauto end.
Qed.
Lemma accepts_ref_inv ts ts' v : refers sch ts ts' -> accepts X sch ts v -> accepts X sch ts' v.
Proof.
  intros [Hk Hd] H.
  assert (Hne : forall k, In k kinds -> ts_type ts <> k) by (intros k Hin E; apply Hk; now rewrite E).
  inversion H; subst;
    try (exfalso; eapply Hne; [|eassumption]; simpl; tauto).
  - exfalso. apply Hk. unfold number_kinds in *. simpl in *. tauto.
  - match goal with R : refers _ _ _ |- _ => destruct R as [_ R]; rewrite (defines_fun sch m Hm _ _ _ Hd R); assumption end.
Qed.

Lemma accepts_at_pos ts v ts2 v2 : at_pos sch ts v ts2 v2 -> accepts X sch ts v -> accepts X sch ts2 v2.
Proof.
  induction 1 as [ts v|ts ts' v ts2 v2 Hr Hp IH|ts l f x ts2 v2 Hk Hf Hx Hp IH
                 |ts ts' l x ts2 v2 Hk Ha Hd Hx Hp IH|ts ts' l k x ts2 v2 Hk Ha Hd Hx Hp IH]; intro Hacc.
  - exact Hacc.
  - apply IH. eapply accepts_ref_inv; eauto.
  - apply IH. apply accepts_struct_inv in Hacc; [|exact Hk]. destruct Hacc as (l' & E & _ & H). injection E as <-. eauto.
  - apply IH. apply accepts_array_inv in Hacc; [|exact Hk]. destruct Hacc as (l' & E & _ & H). injection E as <-.
    destruct H as [H|(t & _ & Hd' & H)]; [congruence|]. rewrite (defines_fun sch m Hm _ _ _ Hd Hd'). auto.
  - apply IH. apply accepts_map_inv in Hacc; [|exact Hk]. destruct Hacc as (l' & E & _ & H). injection E as <-.
    destruct H as [H|(t & _ & Hd' & H)]; [congruence|]. rewrite (defines_fun sch m Hm _ _ _ Hd Hd'). eauto.
Qed.

(** ** Order of map entries *)
Lemma vperm_accepts ts v : accepts X sch ts v -> forall v', vperm v v' -> accepts X sch ts v'.
Proof.
  induction 1 as
    [ts t Hk | ts s t Hk Ht Hr | ts v s Hk Hs Hsz Hv Hp | ts l Hk [Hc1 Hc2] Hf IH
    | ts ts' l Hk Hany Hd Hx IH Hsz | ts l Hk Hany Hsz
    | ts ts' l Hk Hany Hd Hx IH Hsz | ts l Hk Hany Hsz
    | ts d Hk Hw | ts b Hk | ts b Hk | ts v s Hk Hs Hne He
    | ts s Hk | ts v s Hk Hs Hu
    | ts a u d ts1 ts2 Hk Hsp Hlen Hdec Hd1 Ha1 IH1 Hd2 Ha2 IH2
    | ts v Hk | ts v Hk | ts ts' v [Hk Hd] Ha IH ]; intros v' Hv'.
  all: try (inversion Hv'; subst; econstructor; eauto; fail).
  - eapply ac_string; eauto. destruct Hs as [-> | ->]; inversion Hv'; subst; unfold text_of; auto.
  - inversion Hv' as [| |l1 l2 l3 Hf2 Hp]; subst; [now apply ac_struct|].
    assert (Hkeys : forall k, In k (map fst l3) <-> In k (map fst l)).
    { intro k. split; intro Hi.
      - apply in_map_iff in Hi. destruct Hi as ([k' x] & <- & Hi).
        apply (Permutation.Permutation_in _ (Permutation.Permutation_sym Hp)) in Hi. simpl.
        clear -Hf2 Hi. induction Hf2 as [|[ka xa] [kb xb] la lb [He _] Hf2 IHf]; [destruct Hi|].
        simpl in *. destruct Hi as [Hi|Hi]; [injection Hi as <- <-; left; exact He|right; auto].
      - apply in_map_iff in Hi. destruct Hi as ([k' x] & <- & Hi). simpl.
        assert (Hj : exists y, In (k', y) l2).
        { clear -Hf2 Hi. induction Hf2 as [|[ka xa] [kb xb] la lb [He _] Hf2 IHf]; [destruct Hi|].
          simpl in *. destruct Hi as [Hi|Hi]; [injection Hi as <- <-; subst; exists xb; now left|].
          destruct (IHf Hi) as [y Hy]. exists y. now right. }
        destruct Hj as [y Hy]. apply (Permutation.Permutation_in _ Hp) in Hy.
        change k' with (fst (k', y)). now apply in_map. }
    apply ac_struct; [exact Hk| |].
    + split.
      * intros k Hi. apply Hc1. now apply Hkeys.
      * intros f Hf' Hr. apply Hkeys. auto.
    + intros f x Hf' Hi. apply (Permutation.Permutation_in _ (Permutation.Permutation_sym Hp)) in Hi.
      assert (Hj : exists y, In (fd_name f, y) l /\ vperm y x).
      { clear -Hf2 Hi. induction Hf2 as [|[ka xa] [kb xb] la lb [He Hpx] Hf2 IHf]; [destruct Hi|].
        simpl in *. destruct Hi as [Hi|Hi]; [injection Hi as -> ->; subst; exists xa; auto|].
        destruct (IHf Hi) as (y & Hy & Hyp). eauto. }
      destruct Hj as (y & Hy & Hyp). eapply IH; eauto.
  - inversion Hv' as [|l1 l2 Hf2|]; subst; [eapply ac_array; eauto|].
    eapply ac_array; eauto.
    + intros x Hi.
      assert (Hj : exists y, In y l /\ vperm y x).
      { clear -Hf2 Hi. induction Hf2 as [|xa xb la lb Hpx Hf2 IHf]; [destruct Hi|].
        destruct Hi as [<-|Hi]; [exists xa; simpl; auto|]. destruct (IHf Hi) as (y & Hy & Hyp). exists y. simpl; auto. }
      destruct Hj as (y & Hy & Hyp). eapply IH; eauto.
    + replace (length l2) with (length l); [exact Hsz|]. clear -Hf2. induction Hf2; simpl; congruence.
  - inversion Hv' as [|l1 l2 Hf2|]; subst; [eapply ac_array_any; eauto|].
    apply ac_array_any; auto. replace (length l2) with (length l); [exact Hsz|]. clear -Hf2. induction Hf2; simpl; congruence.
  - inversion Hv' as [| |l1 l2 l3 Hf2 Hp]; subst; [eapply ac_map; eauto|].
    eapply ac_map; eauto.
    + intros k x Hi. apply (Permutation.Permutation_in _ (Permutation.Permutation_sym Hp)) in Hi.
      assert (Hj : exists y, In (k, y) l /\ vperm y x).
      { clear -Hf2 Hi. induction Hf2 as [|[ka xa] [kb xb] la lb [He Hpx] Hf2 IHf]; [destruct Hi|].
        simpl in *. destruct Hi as [Hi|Hi]; [injection Hi as -> ->; subst; exists xa; auto|].
        destruct (IHf Hi) as (y & Hy & Hyp). eauto. }
      destruct Hj as (y & Hy & Hyp). eapply IH; eauto.
    + replace (length l3) with (length l); [exact Hsz|]. rewrite <- (Permutation.Permutation_length Hp).
      clear -Hf2. induction Hf2; simpl; congruence.
  - inversion Hv' as [| |l1 l2 l3 Hf2 Hp]; subst; [apply ac_map_any; auto|].
    apply ac_map_any; auto. replace (length l3) with (length l); [exact Hsz|].
    rewrite <- (Permutation.Permutation_length Hp). clear -Hf2. induction Hf2; simpl; congruence.
  - eapply ac_enum; eauto. destruct Hs as [-> | ->]; inversion Hv'; subst; unfold text_of; auto.
  - eapply ac_uuid_text; eauto. destruct Hs as [-> | ->]; inversion Hv'; subst; unfold text_of; auto.
  - eapply ac_ref; [split; eauto|]. auto.
Qed.
End V.
