(** What the generated Java classes ask for. *)
From Verif Require Import GoStr Outcome Value Schema Scalars Model Misc Generator Golang GoModel GoServer OpenApi Java JavaModel
  SpecTime SpecMisc SpecModel SpecPV SpecTrace SpecGo SpecGen SpecJava ModelFacts PVFacts TraceFacts GenFacts GoModelFacts GoText JavaFacts JavaText.
From Coq Require Import Lia Permutation.

(** [b]: does the flag NeedInstant ask for the helper *)
Definition asks_with (b : bool) (e : jevent) : option request :=
  match e with JImport p => Some (Wants p) | JUtil => Some Helper | JTimestamp => Some Stamp | JInstant => if b then Some Helper else None | JError => None end.
Definition gives_with (b : bool) (es : list jevent) (q : request) : Prop := exists e, In e es /\ asks_with b e = Some q.
Lemma some_iff {A} (a b : A) : Some a = Some b <-> b = a.
Proof. split; congruence. Qed.

Lemma some_eq {A} (a b : A) : Some a = Some b -> a = b.
Proof. congruence. Qed.

Section ASKS.
Context (flag : bool).
Notation gives := (gives_with flag).
Notation asks_of := (asks_with flag).
Lemma gives_nil q : gives [] q <-> False.
Proof. split; [intros (e & [] & _)|intros []]. Qed.
Lemma gives_cons e es q : gives (e :: es) q <-> asks_of e = Some q \/ gives es q.
Proof. unfold gives_with. cbn [In]. split; [intros (x & [<- |I] & E); eauto|intros [E|(x & I & E)]; eauto]. Qed.
Lemma gives_app a b q : gives (a ++ b) q <-> gives a q \/ gives b q.
Proof. induction a as [|e a IH]; cbn [app]; [rewrite gives_nil; tauto|]. rewrite !gives_cons, IH. tauto. Qed.
Context (dec_text : decimal -> string) (sch : schema) (m : model) (Hm : new_model sch = Ok m) (o : jopts).
Notation tn := (type_name dec_text m o).
Notation asks := (use_asks sch (jo_instants o)).
Notation must_ask r q := (r = true /\ q = constraint "NotNull").

Lemma evs_gives r q : gives (evs r) q <-> must_ask r q.
Proof. unfold evs. destruct r; [rewrite gives_cons, gives_nil; cbn [asks_with not_null]; rewrite some_iff|rewrite gives_nil]; intuition congruence. Qed.
Lemma with_gives r x q : gives (jn_events (with_events (evs r) x)) q <-> must_ask r q \/ gives (jn_events x) q.
Proof. cbn [with_events jn_events]. rewrite gives_app, evs_gives. tauto. Qed.
Lemma stamp_gives e a q : gives (jn_events (timestamp_name o e a)) q <-> stamp_asks (jo_instants o) q.
Proof.
  unfold timestamp_name, stamp_asks. destruct (jo_instants o); cbn [jn_events]; rewrite !gives_cons, gives_nil; cbn [asks_with jackson]; rewrite ?some_iff; [|tauto].
  unfold databind. assert (F : (if flag then Some Helper else None) = Some q <-> flag = true /\ q = Helper) by (destruct flag; intuition congruence). rewrite F. cbn. intuition congruence.
Qed.
Lemma not_opaque n : In n (map (fun x => fst (fst x)) primitives ++ boxes ++ special_names) -> ~ opaque n.
Proof. intros I (A & B & C). apply in_app_or in I as [I|I]; [exact (A I)|]. apply in_app_or in I as [I|I]; [exact (B I)|exact (C I)]. Qed.
Lemma special_plain n : In n (boxes ++ special_names) -> ~ In n (map (fun x => fst (fst x)) primitives).
Proof. intros I. cbn in I. repeat (destruct I as [<- |I]; [cbn; intuition discriminate|]). destruct I. Qed.
(** a name that is neither a primitive type, nor special, nor declared *)
Ltac not_behind := match goal with H : opaque _ |- _ => exfalso; revert H; apply not_opaque; cbn; tauto end.
Lemma ask_prim ts n p b r q : In (n, p, b) primitives -> (n = "Bool" -> r = true) -> ~ asks ts n r q.
Proof.
  intros I Nb A. assert (J : In n (map (fun x => fst (fst x)) primitives)) by exact (in_map (fun x => fst (fst x)) _ _ I).
  inversion A; subst; try (cbn in J; repeat (destruct J as [J|J]; [discriminate J|]); exact J).
  - contradiction.
  - specialize (Nb eq_refl). discriminate.
  - match goal with H : opaque _ |- _ => destruct H as (K & _) end. contradiction.
Qed.
Lemma ask_box ts n r q : In n boxes -> asks ts n r q <-> must_ask r q.
Proof.
  intros I. split.
  - intros A. inversion A; subst; try (cbn in I; repeat (destruct I as [I|I]; [discriminate I|]); exact (False_ind _ I)); [auto|].
    match goal with H : opaque _ |- _ => destruct H as (_ & K & _) end. contradiction.
  - intros [-> ->]. apply ua_must. apply special_plain, in_or_app. now left.
Qed.
Lemma ask_must ts n q : In n special_names -> must_ask true q -> asks ts n true q.
Proof. intros I [_ ->]. apply ua_must, special_plain, in_or_app. now right. Qed.
Lemma ask_string ts r q : asks ts "String" r q <-> must_ask r q \/ exists s, ts = Some s /\ (ts_pattern s <> "" /\ q = constraint "Pattern"
    \/ (ts_minsize s <> None \/ ts_maxsize s <> None) /\ q = constraint "Size").
Proof.
  split.
  - intros A. inversion A; subst; try not_behind; eauto 6.
  - intros [H|(s & -> & [[P ->]|[P ->]])]; [destruct H as [-> ->]; apply ask_must; [cbn; tauto|auto]|now apply ua_pattern|now apply ua_size].
Qed.
Lemma ask_decimal ts r q : asks ts "Decimal" r q <-> must_ask r q \/ q = Wants "java.math.BigDecimal".
Proof.
  split; [intros A; inversion A; subst; try not_behind; auto|]. intros [[-> ->]| ->]; [apply ask_must; [cbn; tauto|auto]|apply ua_decimal].
Qed.
Lemma ask_timestamp ts r q : asks ts "Timestamp" r q <-> must_ask r q \/ stamp_asks (jo_instants o) q.
Proof.
  split; [intros A; inversion A; subst; try not_behind; auto|]. intros [[-> ->]|H]; [apply ask_must; [cbn; tauto|auto]|now apply ua_timestamp].
Qed.
Lemma ask_array ts r q : asks ts "Array" r q <-> must_ask r q \/ q = Wants "java.util.List"
    \/ exists s ti, ts = Some s /\ defines sch (ts_items s) ti /\ asks (Some ti) (ts_items s) false q.
Proof.
  split; [intros A; inversion A; subst; try not_behind; eauto 8|]. intros [[-> ->]|[-> |(s & ti & -> & D & A)]]; [apply ask_must; [cbn; tauto|auto]|apply ua_list|eapply ua_items; eassumption].
Qed.
Lemma ask_map ts r q : asks ts "Map" r q <-> must_ask r q \/ q = Wants "java.util.Map"
    \/ exists s, ts = Some s /\ ((exists tk, defines sch (ts_keys s) tk /\ asks (Some tk) (ts_keys s) false q)
                                \/ exists ti, defines sch (ts_items s) ti /\ asks (Some ti) (ts_items s) false q).
Proof.
  split; [intros A; inversion A; subst; try not_behind; eauto 10|].
  intros [[-> ->]|[-> |(s & -> & [(tk & D & A)|(ti & D & A)])]]; [apply ask_must; [cbn; tauto|auto]|apply ua_map|eapply ua_keys; eassumption|eapply ua_values; eassumption].
Qed.
Lemma ask_uuid ts r q : asks ts "UUID" r q <-> must_ask r q \/ q = Wants "java.util.UUID".
Proof.
  split; [intros A; inversion A; subst; try not_behind; auto|]. intros [[-> ->]| ->]; [apply ask_must; [cbn; tauto|auto]|apply ua_uuid].
Qed.
Lemma ask_any ts r q : asks ts "Any" r q <-> must_ask r q.
Proof. split; [intros A; inversion A; subst; try not_behind; auto|]. intros [-> ->]. apply ask_must; [cbn; tauto|auto]. Qed.
Lemma ask_bool ts q : asks ts "Bool" false q <-> asks ts "Boolean" false q.
Proof. split; [intros A; inversion A; subst; try not_behind; auto|apply ua_bool]. Qed.
Lemma ask_opaque ts n r q : opaque n -> asks ts n r q <-> must_ask r q \/ exists td r', defines sch n td /\ stands_for td r r' /\ asks (Some td) (ts_type td) r' q.
Proof.
  intros O. split.
  - intros A. inversion A; subst; eauto 8; exfalso; revert O; apply not_opaque; cbn; tauto.
  - intros [[-> ->]|(td & r' & D & S & A)]; [apply ua_must, O|eapply ua_behind; eassumption].
Qed.

Lemma name_asks f : forall ts n r x, tn f ts n r = Ok x -> forall q, gives (jn_events x) q <-> asks ts n r q.
Proof.
  induction f as [|f IH]; [discriminate|].
  assert (Op : forall ts n r x, opaque n -> tn (S f) ts n r = Ok x -> forall q, gives (jn_events x) q <-> asks ts n r q).
  { intros ts n r x On H q. rewrite opaque_step in H by exact On. apply rbind_Ok in H as (y & H & E). injection E as <-. rewrite with_gives, (ask_opaque _ _ _ _ On). unfold other_name in H.
    destruct (find_type m n) as [td|] eqn:F.
    - pose proof (find_def sch m Hm n td F) as D. cbv zeta in H.
      assert (One : forall td' , defines sch n td' -> td' = td_spec td) by (intros td' D'; exact (def_one sch m Hm _ _ _ D' D)).
      assert (K : forall r' (P : Prop), stands_for (td_spec td) r r' -> (forall r'', stands_for (td_spec td) r r'' -> r'' = r') -> (P <-> asks (Some (td_spec td)) (ts_type (td_spec td)) r' q) ->
        (must_ask r q \/ P <-> must_ask r q \/ exists td r', defines sch n td /\ stands_for td r r' /\ asks (Some td) (ts_type td) r' q)).
      { intros r' P S U I. rewrite I. split; (intros [M|A]; [auto|right]); [eauto|]. destruct A as (td' & r'' & D' & S' & A). rewrite (One _ D') in *. now rewrite (U _ S') in A. }
      assert (K0 : (forall r'', ~ stands_for (td_spec td) r r'') -> (must_ask r q \/ gives [] q <-> must_ask r q \/ exists td r', defines sch n td /\ stands_for td r r' /\ asks (Some td) (ts_type td) r' q)).
      { intros U. rewrite gives_nil. split; (intros [M|A]; [auto|right]); [destruct A|]. destruct A as (td' & r'' & D' & S' & A). rewrite (One _ D') in *. exact (U _ S'). }
      destruct (str_mem (ts_type (td_spec td)) _) eqn:E1.
      { apply str_mem_In in E1. apply (K r); [left; split; [right; exact E1|reflexivity]| |exact (IH _ _ _ _ H q)].
        intros r'' [[_ J]|[J _]]; [exact J|]. exfalso. cbn in E1, J. intuition congruence. }
      assert (Q : forall s, ts_type (td_spec td) = s -> In s ["Array"; "Map"; "UUID"; "Decimal"; "Timestamp"] -> stands_for (td_spec td) r false /\ forall r'', stands_for (td_spec td) r r'' -> r'' = false).
      { intros s Es I. rewrite <- Es in I. split; [right; auto|]. intros r'' [[J _]|[_ J]]; [|exact J]. exfalso. cbn in I, J. intuition congruence. }
      destruct (_ =?s "String") eqn:E2.
      { apply seqb_eq in E2. apply (K r); [left; rewrite E2; split; [now left|reflexivity]| |rewrite E2; exact (IH _ _ _ _ H q)].
        intros r'' [[_ J]|[J _]]; [exact J|]. exfalso. rewrite E2 in J. cbn in J. intuition congruence. }
      destruct (_ =?s "Array") eqn:E3.
      { apply seqb_eq in E3. destruct (Q _ E3 ltac:(cbn; tauto)) as [S U]. apply (K false); [exact S|exact U|rewrite E3; exact (IH _ _ _ _ H q)]. }
      destruct (_ =?s "Map") eqn:E4.
      { apply seqb_eq in E4. destruct (Q _ E4 ltac:(cbn; tauto)) as [S U]. apply (K false); [exact S|exact U|rewrite E4; exact (IH _ _ _ _ H q)]. }
      apply seqb_neq in E2, E3, E4.
      assert (NN : ~ In (ts_type (td_spec td)) numbers) by (intros I; apply str_mem_In in I; unfold numbers in I; congruence).
      destruct ((_ =?s "Struct") && (n =?s "Struct"))%bool eqn:E5.
      { apply andb_true_iff in E5 as [E5 _]. apply seqb_eq in E5. injection H as <-. apply K0. intros r'' [[J _]|[J _]]; rewrite E5 in J; cbn in J; intuition congruence. }
      destruct (_ =?s "UUID") eqn:E6.
      { apply seqb_eq in E6. injection H as <-. destruct (Q _ E6 ltac:(cbn; tauto)) as [S U]. apply (K false); [exact S|exact U|]. rewrite E6, ask_uuid. cbn [jn_events].
        rewrite gives_cons, gives_nil. cbn [asks_with]. rewrite some_iff. intuition congruence. }
      destruct (_ =?s "Decimal") eqn:E7.
      { apply seqb_eq in E7. injection H as <-. destruct (Q _ E7 ltac:(cbn; tauto)) as [S U]. apply (K false); [exact S|exact U|]. rewrite E7, ask_decimal. cbn [jn_events].
        rewrite gives_cons, gives_nil. cbn [asks_with]. rewrite some_iff. intuition congruence. }
      destruct (_ =?s "Timestamp") eqn:E8.
      { apply seqb_eq in E8. injection H as <-. destruct (Q _ E8 ltac:(cbn; tauto)) as [S U]. apply (K false); [exact S|exact U|]. rewrite E8, ask_timestamp, stamp_gives. intuition congruence. }
      apply seqb_neq in E6, E7, E8. injection H as <-. apply K0. intros r'' [[J _]|[J _]]; [destruct J as [J|J]; [congruence|contradiction]|]. cbn in J. intuition congruence.
    - injection H as <-. cbn [jn_events]. rewrite gives_nil. split; (intros [M|A]; [auto|right]); [destruct A|]. destruct A as (td & r' & D & _). exact (proj1 (find_none sch m Hm n) F _ D). }
  intros ts n r x H q. destruct (name_cases n) as [(p & b & I)|[B|[S|On]]]; [| | |apply Op; assumption].
  - destruct r.
    + cbn [type_name] in H. rewrite (table_prim _ _ _ I) in H. injection H as <-. cbn [jn_events]. rewrite gives_nil. split; [intros []|]. intros A. exact (ask_prim _ _ _ _ _ _ I (fun _ => eq_refl) A).
    + destruct (string_dec n "Bool") as [->|N].
      * rewrite bool_step in H. rewrite ask_bool. exact (Op _ _ _ _ opaque_boolean H q).
      * assert (E : jn_events x = []).
        { clear -I N H. cbn in I. repeat (destruct I as [I|I]; [injection I as <- <- <-; try congruence; cbn in H; injection H as <-; reflexivity|]). destruct I. }
        rewrite E, gives_nil. split; [intros []|]. intros A. exact (ask_prim _ _ _ _ _ _ I (fun K => match N K with end) A).
  - assert (E : jn_events x = evs r ++ []).
    { clear -B H. cbn in B. repeat (destruct B as [<- |B]; [destruct r; cbn in H; injection H as <-; reflexivity|]). destruct B. }
    rewrite E, app_nil_r, evs_gives, (ask_box _ _ _ _ B). tauto.
  - cbn [special_names In] in S.
    destruct S as [<- |[<- |[<- |[<- |[<- |[<- |[<- |[]]]]]]]]; cbn -[rbind] in H; (replace (if r then None else None) with (@None string) in H by (destruct r; reflexivity));
      try change (match None with Some p => Ok (mkJN p [] None []) | None => ?y end) with y in H; apply rbind_Ok in H as (y & H & E); injection E as <-;
      match goal with |- gives (jn_events (with_events ?e _)) _ <-> _ => change e with (evs r) end; rewrite with_gives.
    + rewrite ask_string. destruct (string_annos ts) as [a e] eqn:E. injection H as <-. cbn [jn_events]. unfold string_annos, size_annos in E. destruct ts as [s|].
      * destruct (ts_pattern s =?s "") eqn:P.
        -- apply seqb_eq in P. assert (G : gives e q <-> (ts_minsize s <> None \/ ts_maxsize s <> None) /\ q = constraint "Size").
           { destruct (ts_minsize s), (ts_maxsize s); injection E as _ <-; rewrite ?gives_cons, gives_nil; cbn [asks_with]; rewrite ?some_iff; unfold constraint; cbn; intuition congruence. }
           rewrite G. split; [intros [M|J]; eauto 6|]. intros [M|(s' & Es & J)]; [auto|]. injection Es as <-. intuition.
        -- apply seqb_neq in P. assert (G : gives e q <-> q = constraint "Pattern" \/ (ts_minsize s <> None \/ ts_maxsize s <> None) /\ q = constraint "Size").
           { destruct (ts_minsize s), (ts_maxsize s); injection E as _ <-; cbn [app]; rewrite ?gives_cons, gives_nil; cbn [asks_with]; rewrite ?some_iff; unfold constraint; cbn; intuition congruence. }
           rewrite G. split; [intros [M|[J|J]]; eauto 6|]. intros [M|(s' & Es & J)]; [auto|]. injection Es as <-. intuition.
      * injection E as _ <-. rewrite gives_nil. split; [tauto|]. intros [M|(s & Es & _)]; [auto|discriminate].
    + injection H as <-. cbn [jn_events]. rewrite gives_cons, gives_nil, ask_decimal. cbn [asks_with]. rewrite some_iff. tauto.
    + injection H as <-. rewrite stamp_gives, ask_timestamp. tauto.
    + rewrite ask_array. destruct ts as [ts|].
      * destruct (find_type m (ts_items ts)) as [td|] eqn:F; [|discriminate]. apply rbind_Ok in H as (i & H & E). injection E as <-. cbn [jn_events]. rewrite gives_cons. cbn [asks_with]. rewrite some_iff.
        rewrite (IH _ _ _ _ H q). pose proof (find_def sch m Hm _ _ F) as D. split.
        -- intros [M|[J|J]]; eauto 8.
        -- intros [M|[J|(s & ti & Es & D' & J)]]; auto. injection Es as <-. rewrite (def_one sch m Hm _ _ _ D' D) in J. auto.
      * injection H as <-. cbn [jn_events]. rewrite gives_cons, gives_nil. cbn [asks_with]. rewrite some_iff. split; [tauto|]. intros [M|[J|(s & ti & Es & _)]]; [auto|auto|discriminate].
    + rewrite ask_map. destruct ts as [ts|].
      * destruct (find_type m (ts_keys ts)) as [kd|] eqn:FK; [|discriminate]. apply rbind_Ok in H as (k & H & E).
        destruct (find_type m (ts_items ts)) as [td|] eqn:F; [|discriminate]. apply rbind_Ok in E as (i & H' & E). injection E as <-. cbn [jn_events]. rewrite gives_cons, gives_app. cbn [asks_with]. rewrite some_iff.
        rewrite (IH _ _ _ _ H q), (IH _ _ _ _ H' q). pose proof (find_def sch m Hm _ _ F) as D. pose proof (find_def sch m Hm _ _ FK) as DK. split.
        -- intros [M|[J|[J|J]]]; eauto 10.
        -- intros [M|[J|(s & Es & [(tk & D' & J)|(ti & D' & J)])]]; auto; injection Es as <-; [rewrite (def_one sch m Hm _ _ _ D' DK) in J|rewrite (def_one sch m Hm _ _ _ D' D) in J]; auto.
      * injection H as <-. cbn [jn_events]. rewrite gives_cons, gives_nil. cbn [asks_with]. rewrite some_iff. split; [tauto|]. intros [M|[J|(s & Es & _)]]; [auto|auto|discriminate].
    + injection H as <-. cbn [jn_events]. rewrite gives_cons, gives_nil, ask_uuid. cbn [asks_with]. rewrite some_iff. tauto.
    + injection H as <-. cbn [jn_events]. rewrite gives_nil, ask_any. tauto.
Qed.

(** ** Members *)
Context (fuel : nat) (ord : list string -> list string) (Hord : forall l, Permutation (ord l) l).
Notation un := (use_name dec_text m o fuel).
Notation cstruct := (create_struct dec_text m o fuel ord).
Notation spec_asks ts r q := (asks (Some ts) (ts_type ts) r q).
Notation sasks := (struct_asks sch (jo_instants o) (jo_lombok o) (jo_immutable o) (jo_json o)).
Notation casks := (class_asks sch (jo_instants o) (jo_lombok o) (jo_immutable o) (jo_json o)).
Lemma un_gives ts r x q : un ts r = Ok x -> gives (jn_events x) q <-> spec_asks ts r q.
Proof. intros H. exact (name_asks _ _ _ _ _ H q). Qed.
Lemma members_gives {A} name before decl (spec : A -> typespec) required keyword cls indent l : forall ns0 s e ns,
  emit_members dec_text m o fuel name before decl spec required keyword cls indent l ns0 = Ok (s, e, ns, false) ->
  forall q, gives e q <-> exists a, In a (map fst l) /\ spec_asks (spec a) (required a) q.
Proof.
  induction l as [|[x p] l IH]; intros ns0 s e ns H q; cbn [emit_members] in H.
  - injection H as <- <- <-. rewrite gives_nil. split; [intros []|intros (a & [] & _)].
  - destruct (keyword x); [discriminate|]. apply rbind_Ok in H as (y & Hy & H). apply rbind_Ok in H as (t & Ht & H).
    assert (K : forall e', (gives e' q <-> exists a, In a (map fst l) /\ spec_asks (spec a) (required a) q) ->
      (gives (jn_events y ++ e') q <-> exists a, In a (map fst ((x, p) :: l)) /\ spec_asks (spec a) (required a) q)).
    { intros e' G. rewrite gives_app, G, (un_gives _ _ _ _ Hy). cbn [map fst In]. split.
      - intros [J|(a & I & J)]; [exists x|exists a]; auto.
      - intros (a & [<- |I] & J); [auto|right; eauto]. }
    destruct (jn_anon y).
    + destruct (t =?s cls); [discriminate|]. apply rbind_Ok in H as ([[[s' e'] ns'] bad] & H & E). injection E as <- <- <- ->. apply K. exact (IH _ _ _ _ H q).
    + apply rbind_Ok in H as ([[[s' e'] ns'] bad] & H & E). injection E as <- <- <- ->. apply K. exact (IH _ _ _ _ H q).
Qed.
Lemma pieces_gives {A} (f : A -> piece) l : forall s e, pieces f l = Ok (s, e) -> forall q, gives e q <-> exists a s' e', In a l /\ f a = Ok (s', e') /\ gives e' q.
Proof.
  induction l as [|x l IH]; intros s e H q; cbn [pieces] in H.
  - injection H as <- <-. rewrite gives_nil. split; [intros []|intros (a & s' & e' & [] & _)].
  - apply rbind_Ok in H as ([s1 e1] & H1 & H). apply rbind_Ok in H as ([s2 e2] & H2 & H). injection H as <- <-. rewrite gives_app, (IH _ _ H2 q). split.
    + intros [J|(a & s' & e' & I & J)]; [exists x, s1, e1; split; [now left|auto]|exists a, s', e'; split; [now right|auto]].
    + intros (a & s' & e' & [<- |I] & E & J); [left|right; exists a, s', e'; auto]. rewrite H1 in E. injection E as _ <-. exact J.
Qed.
Lemma pieces_each {A} (f : A -> piece) l : forall s e, pieces f l = Ok (s, e) -> forall a, In a l -> exists s' e', f a = Ok (s', e').
Proof.
  induction l as [|x l IH]; intros s e H a I; [destruct I|]. cbn [pieces] in H.
  apply rbind_Ok in H as ([s1 e1] & H1 & H). apply rbind_Ok in H as ([s2 e2] & H2 & H). destruct I as [<- |I]; eauto.
Qed.
Lemma pieces_error {A} (f : A -> piece) l : forall s e a s' e', pieces f l = Ok (s, e) -> In a l -> f a = Ok (s', e') -> In JError e' -> In JError e.
Proof.
  induction l as [|x l IH]; intros s e a s' e' H I E J; [destruct I|]. cbn [pieces] in H.
  apply rbind_Ok in H as ([s1 e1] & H1 & H). apply rbind_Ok in H as ([s2 e2] & H2 & H). injection H as <- <-. apply in_or_app.
  destruct I as [<- |I]; [left; rewrite H1 in E; injection E as _ <-; exact J|right; eauto].
Qed.
Notation field_asks := (fun (f : fielddef) q => spec_asks (fd_spec f) (fd_required f) q).
Lemma stamp_field f q : (ts_type (fd_spec f) =?s "Timestamp") && jo_instants o = true -> q = Helper -> field_asks f q.
Proof.
  intros E ->. apply andb_true_iff in E as [E I]. apply seqb_eq in E. cbv beta. rewrite E. apply ua_timestamp. rewrite I. cbn. tauto.
Qed.
Lemma args_only l : forall a e, typed_args dec_text m o fuel l = Ok (a, e) -> forall q, gives e q -> exists f, In f l /\ field_asks f q.
Proof.
  induction l as [|f l IH]; intros a e H q G; cbn [typed_args] in H.
  - injection H as <- <-. now apply gives_nil in G.
  - apply rbind_Ok in H as (x & Hx & H). apply rbind_Ok in H as ([a' e'] & H' & H). injection H as <- <-. apply gives_app in G as [G|G].
    + exists f. split; [now left|]. now apply (un_gives _ _ _ _ Hx).
    + destruct (IH _ _ H' q G) as (g & I & J). exists g. split; [now right|exact J].
Qed.
Lemma builder_only cls i l s e : emit_builder dec_text m o fuel cls i l = Ok (s, e) -> forall q, gives e q -> exists f, In f l /\ field_asks f q.
Proof.
  intros E q G. unfold emit_builder in E. cbv zeta in E.
  apply rbind_Ok in E as ([a1 e1] & E1 & E). apply rbind_Ok in E as ([a2 e2] & E2 & E). apply rbind_Ok in E as ([a3 e3] & E3 & E). apply ok_pair in E as [_ ->].
  apply gives_app in G as [G|G]; [|apply gives_app in G as [G|G]].
  - apply (proj1 (pieces_gives _ _ _ _ E1 q)) in G as (a & s' & e' & I & H & G). exists a. split; [exact I|].
    unfold JavaModel.named in H. apply rbind_Ok in H as (x & Hx & H). apply ok_pair in H as [_ ->]. now apply (un_gives _ _ _ _ Hx).
  - apply (proj1 (pieces_gives _ _ _ _ E2 q)) in G as (a & s' & e' & I & H & G). apply rbind_Ok in H as (c & _ & H). unfold just in H. apply ok_pair in H as [_ ->]. now apply gives_nil in G.
  - apply (proj1 (pieces_gives _ _ _ _ E3 q)) in G as (a & s' & e' & I & H & G). exists a. split; [exact I|]. apply rbind_Ok in H as ([s1 e4] & H & E). apply ok_pair in E as [_ ->].
    apply gives_app in G as [G|G].
    + unfold JavaModel.named in H. apply rbind_Ok in H as (x & Hx & H). apply ok_pair in H as [_ ->]. now apply (un_gives _ _ _ _ Hx).
    + destruct (_ && _)%bool eqn:B; [|now apply gives_nil in G]. rewrite gives_cons, gives_nil in G. cbn [asks_with] in G. rewrite some_iff in G. apply (stamp_field _ _ B). tauto.
Qed.
Lemma body_only cls i l s e : (if jo_immutable o then
                      '(a, ea) <- emit_constructor dec_text m o fuel cls i l ;;
                      '(b, eb) <- pieces (emit_getter dec_text m o fuel i) l ;;
                      '(c, ec) <- emit_builder dec_text m o fuel cls (i +++ "    ") l ;; Ok (a +++ b +++ c, ea ++ eb ++ ec)
                    else pieces (emit_setter dec_text m o fuel cls i) l) = Ok (s, e) -> forall q, gives e q -> exists f, In f l /\ field_asks f q.
Proof.
  intros H q G. destruct (jo_immutable o).
  - apply rbind_Ok in H as ([a ea] & Ha & H). apply rbind_Ok in H as ([b eb] & Hb & H). apply rbind_Ok in H as ([c ec] & Hc & H). apply ok_pair in H as [_ ->].
    apply gives_app in G as [G|G]; [|apply gives_app in G as [G|G]].
    + unfold emit_constructor in Ha. apply rbind_Ok in Ha as ([ar ea'] & Ha & E). apply ok_pair in E as [_ ->]. exact (args_only _ _ _ Ha q G).
    + apply (proj1 (pieces_gives _ _ _ _ Hb q)) in G as (f & s' & e' & I & H & G). exists f. split; [exact I|].
      unfold emit_getter in H. apply rbind_Ok in H as (x & Hx & H). apply rbind_Ok in H as (c' & _ & H). apply ok_pair in H as [_ ->]. now apply (un_gives _ _ _ _ Hx).
    + exact (builder_only _ _ _ _ _ Hc q G).
  - apply (proj1 (pieces_gives _ _ _ _ H q)) in G as (f & s' & e' & I & E & G). exists f. split; [exact I|].
    unfold emit_setter in E. apply rbind_Ok in E as (x & Hx & E). apply rbind_Ok in E as (c' & _ & E). apply ok_pair in E as [_ ->]. now apply (un_gives _ _ _ _ Hx).
Qed.
Lemma pretty_gives t e q : emit_pretty o = (t, e) -> gives e q <-> jo_json o = true /\ q = Helper.
Proof.
  unfold emit_pretty. destruct (jo_json o); intros E; injection E as _ <-; [rewrite gives_cons, gives_nil; cbn [asks_with]; rewrite some_iff|rewrite gives_nil]; intuition congruence.
Qed.

(** ** The classes inside a class *)
Definition gives_struct (ts : typespec) : Prop := forall cls i exc s e, cstruct ts cls i exc = Ok (s, e) -> ~ In JError e ->
  forall q, gives e q <-> sasks (ts_fields ts) (i =?s "") (str_mem cls exc) q.
Section NESTED.
Context {A : Type} (name : A -> string) (spec : A -> typespec) (slot_of : A -> slot).
Context (Hname : forall a, slot_name (slot_of a) = name a) (Hspec : forall a, slot_spec (slot_of a) = spec a).
Context (l : list A) (i : string) (Hi : i <> "") (ns : inners).
Notation made := (fun a => (a, cstruct (spec a) (capitalize (name a)) i [])).
Context (Hns : holds name spec (map made l) ns) (IH : forall a, In a l -> gives_struct (spec a)).
Lemma nested_gives s e : emit_nested ord ns = Ok (s, e) -> ~ In JError e ->
  forall q, gives e q <-> exists s c, last_nest (map slot_of l) s c /\ sasks (ts_fields (slot_spec s)) false false q.
Proof.
  intros E Ne q. unfold emit_nested in E. rewrite (pieces_gives _ _ _ _ E q). apply seqb_neq in Hi. split.
  - intros (k & s' & e' & I & H & G). assert (Ek : exists p, assoc k ns = Some p).
    { apply (Permutation_in _ (Hord _)) in I. destruct (assoc k ns) as [p|] eqn:Ek; [eauto|]. exfalso. apply assoc_None in Ek. contradiction. }
    destruct Ek as [p Ek]. destruct (held_last dec_text m o fuel ord name spec slot_of Hname Hspec l i ns Hns _ _ Ek) as (a & Ia & -> & La). rewrite Ek in H.
    exists (slot_of a), k. split; [exact La|]. rewrite Hspec.
    assert (Ne' : ~ In JError e') by (intros J; apply Ne; refine (pieces_error _ _ _ _ k s' e' E I _ J); now rewrite Ek).
    pose proof (IH a Ia _ _ _ _ _ H Ne' q) as X. rewrite Hi in X. now apply X.
  - intros (sl & c & L & S). destruct (last_held dec_text m o fuel ord name spec slot_of Hname Hspec l i ns Hns _ _ L) as [p Ek].
    destruct (held_last dec_text m o fuel ord name spec slot_of Hname Hspec l i ns Hns _ _ Ek) as (a & Ia & Ep & La). rewrite (last_one _ _ _ _ L La), Hspec in S.
    assert (I : In c (ord (map fst ns))).
    { apply (Permutation_in _ (Permutation_sym (Hord _))). apply assoc_In in Ek. apply in_map_iff. exists (c, p). auto. }
    destruct (pieces_each _ _ _ _ E c I) as (s' & e' & H). exists c, s', e'. split; [exact I|]. split; [exact H|]. pose proof H as H'. rewrite Ek, Ep in H'.
    assert (Ne' : ~ In JError e') by (intros J; apply Ne; exact (pieces_error _ _ _ _ c s' e' E I H J)).
    pose proof (IH a Ia _ _ _ _ _ H' Ne' q) as X. rewrite Hi in X. now apply X.
Qed.
End NESTED.

Lemma gives_if (b : bool) x y q : gives (if b then x else y) q <-> if b then gives x q else gives y q.
Proof. destruct b; reflexivity. Qed.
Lemma imports_give l q : gives (map JImport l) q <-> In q (map Wants l).
Proof. induction l as [|p l IH]; [apply gives_nil|]. cbn [map In]. rewrite gives_cons, IH. cbn [asks_with]. rewrite some_iff. intuition congruence. Qed.
Lemma struct_gives ts : gives_struct ts.
Proof.
  induction ts as [ts IHf _] using typespec_ind'. rewrite Forall_forall in IHf. intros cls i exc s e H Ne q.
  destruct ts as [t p v mns mxs fs es mn mx it kt vs un w rf]. cbn [create_struct ts_fields] in H, IHf |- *. cbv zeta in H.
  set (thrown := str_mem cls exc) in *.
  apply rbind_Ok in H as ([[[ms e1] ns] bad] & HM & H).
  destruct bad; [apply ok_pair in H as [_ ->]; exfalso; apply Ne, in_or_app; right; apply in_or_app; right; now left|].
  pose proof HM as HT.
  apply (members_text dec_text sch m Hm o fuel (fun f : fielddef => fd_name f) (fun f => fd_comment f) _ _ _ _ _ cls i
    (struct_member java_comment go_quote dec_text sprint (jo_immutable o) (i +++ "    ")) (fun f k M => struct_member_text dec_text sch m o fuel i f k M) _ [] _ _ _ _ (holds_nil _ _)) in HT as (_ & _ & _ & HH).
  cbn [app] in HH. pose proof (members_gives _ _ _ _ _ _ _ _ _ _ _ _ _ HM q) as G1. rewrite map_map in G1. cbn [fst] in G1. rewrite map_id in G1. clear HM.
  assert (G0 : forall e', gives ((if existsb (fun f : fielddef => negb (fd_required f)) fs then [jackson "annotation.JsonInclude"] else [not_null])
            ++ (if jo_immutable o then [jackson "databind.annotation.JsonDeserialize"; jackson "databind.annotation.JsonPOJOBuilder"] else [])
            ++ (if thrown then [jackson "annotation.JsonIgnoreProperties"] else [])
            ++ (if (i =?s "") && (jo_lombok o && negb thrown) then
                  JImport "lombok.Data" :: match fs with [] => [] | _ => [JImport "lombok.AllArgsConstructor"] end
                  ++ [JImport "lombok.Builder"; JImport "lombok.NoArgsConstructor"]
                else []) ++ e') q <->
      ((exists f, In f fs /\ fd_required f = false) /\ q = annotation "JsonInclude")
      \/ ((forall f, In f fs -> fd_required f = true) /\ q = constraint "NotNull")
      \/ (jo_immutable o = true /\ In q [databind "JsonDeserialize"; databind "JsonPOJOBuilder"])
      \/ (thrown = true /\ q = annotation "JsonIgnoreProperties")
      \/ ((i =?s "") = true /\ jo_lombok o = true /\ thrown = false
          /\ (In q [Wants "lombok.Data"; Wants "lombok.Builder"; Wants "lombok.NoArgsConstructor"] \/ fs <> [] /\ q = Wants "lombok.AllArgsConstructor"))
      \/ gives e' q).
  { intros e'. rewrite !gives_app, !gives_if.
    assert (Ex : (if existsb (fun f : fielddef => negb (fd_required f)) fs then gives [jackson "annotation.JsonInclude"] q else gives [not_null] q) <->
      ((exists f, In f fs /\ fd_required f = false) /\ q = annotation "JsonInclude") \/ ((forall f, In f fs -> fd_required f = true) /\ q = constraint "NotNull")).
    { destruct (existsb _ fs) eqn:X; rewrite gives_cons, gives_nil; unfold jackson, not_null, annotation, constraint; cbn [asks_with]; rewrite some_iff.
      - apply existsb_exists in X as (f & I & R). apply negb_true_iff in R. split; [intros [->|[]]; left; eauto|].
        intros [[_ ->]|[All _]]; [auto|]. rewrite (All f I) in R. discriminate.
      - assert (All : forall f, In f fs -> fd_required f = true).
        { intros f I. destruct (fd_required f) eqn:R; [reflexivity|]. exfalso. rewrite <- not_true_iff_false in X. apply X. apply existsb_exists. exists f. now rewrite R. }
        split; [intros [->|[]]; right; auto|]. intros [[(f & I & R) _]|[_ ->]]; [|auto]. rewrite (All f I) in R. discriminate. }
    rewrite Ex.
    assert (Im : (if jo_immutable o then gives [jackson "databind.annotation.JsonDeserialize"; jackson "databind.annotation.JsonPOJOBuilder"] q else gives [] q) <->
      (jo_immutable o = true /\ In q [databind "JsonDeserialize"; databind "JsonPOJOBuilder"])).
    { destruct (jo_immutable o); [|rewrite gives_nil; intuition congruence]. rewrite !gives_cons, gives_nil. unfold jackson, databind. cbn [asks_with In]. rewrite !some_iff. cbn. intuition congruence. }
    rewrite Im.
    assert (Th : (if thrown then gives [jackson "annotation.JsonIgnoreProperties"] q else gives [] q) <-> (thrown = true /\ q = annotation "JsonIgnoreProperties")).
    { destruct thrown; [|rewrite gives_nil; intuition congruence]. rewrite !gives_cons, gives_nil. unfold jackson, annotation. cbn [asks_with]. rewrite !some_iff. cbn. intuition congruence. }
    rewrite Th.
    match goal with |- _ \/ _ \/ _ \/ ?x \/ _ <-> _ => assert (Lo : x <-> ((i =?s "") = true /\ jo_lombok o = true /\ thrown = false
          /\ (In q [Wants "lombok.Data"; Wants "lombok.Builder"; Wants "lombok.NoArgsConstructor"] \/ fs <> [] /\ q = Wants "lombok.AllArgsConstructor"))) end.
    { destruct (i =?s ""), (jo_lombok o), thrown; cbn [andb negb]; rewrite ?gives_nil; try (intuition congruence).
      rewrite gives_cons, gives_app, !gives_cons, gives_nil. cbn [asks_with In]. rewrite !some_iff. destruct fs; [rewrite gives_nil|rewrite gives_cons, gives_nil; cbn [asks_with]; rewrite some_iff]; intuition congruence. }
    rewrite Lo. tauto. }
  assert (Cl : forall P : Prop, (P <-> sasks fs (i =?s "") thrown q) -> P <-> sasks fs (i =?s "") thrown q) by auto.
  assert (In1 : ((exists f, In f fs /\ fd_required f = false) /\ q = annotation "JsonInclude") -> sasks fs (i =?s "") thrown q) by (intros [(f & I & R) ->]; eapply sa_optional; eassumption).
  assert (In2 : ((forall f, In f fs -> fd_required f = true) /\ q = constraint "NotNull") -> sasks fs (i =?s "") thrown q) by (intros [R ->]; now apply sa_required).
  assert (In3 : (jo_immutable o = true /\ In q [databind "JsonDeserialize"; databind "JsonPOJOBuilder"]) -> sasks fs (i =?s "") thrown q) by (intros [R J]; now apply sa_builder).
  assert (In4 : (thrown = true /\ q = annotation "JsonIgnoreProperties") -> sasks fs (i =?s "") thrown q) by (intros [-> ->]; apply sa_thrown).
  assert (In5 : ((i =?s "") = true /\ jo_lombok o = true /\ thrown = false
          /\ (In q [Wants "lombok.Data"; Wants "lombok.Builder"; Wants "lombok.NoArgsConstructor"] \/ fs <> [] /\ q = Wants "lombok.AllArgsConstructor")) -> sasks fs (i =?s "") thrown q).
  { intros (-> & L & -> & [J|[J ->]]); [now apply sa_lombok|now apply sa_arguments]. }
  assert (In6 : (exists f, In f fs /\ field_asks f q) -> sasks fs (i =?s "") thrown q) by (intros (f & I & J); eapply sa_member; eassumption).
  destruct (jo_lombok o && negb thrown)%bool eqn:El.
  - apply ok_pair in H as [_ ->]. rewrite <- !app_assoc, G0, G1. apply andb_true_iff in El as [El Et]. apply negb_true_iff in Et. split.
    + intros [J|[J|[J|[J|[J|J]]]]]; auto.
    + intros J. inversion J; subst.
      * left. eauto.
      * tauto.
      * tauto.
      * exfalso. congruence.
      * right. right. right. right. left. repeat split; auto.
      * right. right. right. right. left. repeat split; auto.
      * right. right. right. right. right. eauto.
      * match goal with X : _ -> thrown = true |- _ => specialize (X El) end. congruence.
      * match goal with X : _ -> thrown = true |- _ => specialize (X El) end. congruence.
  - apply rbind_Ok in H as ([body e2] & HB & H). destruct (emit_pretty o) as [pt e3] eqn:Ep. apply rbind_Ok in H as ([inner e4] & HN & H). apply ok_pair in H as [_ ->].
    assert (N4 : ~ In JError e4) by (intros I; apply Ne; apply in_or_app; right; apply in_or_app; right; apply in_or_app; right; apply in_or_app; now right).
    assert (Hi : i +++ "    " <> "") by (destruct i; discriminate).
    pose proof (nested_gives (fun f : fielddef => fd_name f) (fun f => fd_spec f) field_slot (fun _ => eq_refl) (fun _ => eq_refl) fs (i +++ "    ") Hi ns HH IHf _ _ HN N4 q) as G4.
    pose proof (body_only _ _ _ _ _ HB q) as G2. rewrite <- !app_assoc, G0, !gives_app, G1, (pretty_gives _ _ _ Ep), G4.
    assert (Nt : jo_lombok o = true -> thrown = true) by (intros L; rewrite L in El; cbn in El; now destruct thrown).
    split.
    + intros [J|[J|[J|[J|[J|[J|[J|[J|J]]]]]]]]; auto; [destruct J as [P ->]; now apply sa_pretty|]. destruct J as (sl & c & L & S). eapply sa_inner; eassumption.
    + intros J. inversion J; subst.
      * left. eauto.
      * tauto.
      * tauto.
      * right. right. right. left. auto.
      * right. right. right. right. left. repeat split; auto.
      * right. right. right. right. left. repeat split; auto.
      * right. right. right. right. right. left. eauto.
      * right. right. right. right. right. right. right. left. auto.
      * right. right. right. right. right. right. right. right. eauto.
Qed.

Lemma union_args_only vs : forall a e, union_args dec_text m o fuel vs = Ok (a, e) -> forall q, gives e q -> exists v, In v vs /\ spec_asks (uv_spec v) false q.
Proof.
  induction vs as [|v vs IH]; intros a e H q G; cbn [union_args] in H.
  - injection H as <- <-. now apply gives_nil in G.
  - apply rbind_Ok in H as (x & Hx & H). apply rbind_Ok in H as ([a' e'] & H' & H). injection H as <- <-. apply gives_app in G as [G|G].
    + exists v. split; [now left|]. now apply (un_gives _ _ _ _ Hx).
    + destruct (IH _ _ H' q G) as (g & I & J). exists g. split; [now right|exact J].
Qed.
Lemma union_gives ts thrown cls s e : ts_type ts = "Union" -> create_union dec_text m o fuel ord (ts_variants ts) cls = Ok (s, e) -> ~ In JError e ->
  forall q, gives e q <-> casks thrown ts q.
Proof.
  intros Et H Ne q. set (vs := ts_variants ts) in *. assert (Ev : vs = ts_variants ts) by reflexivity. clearbody vs. unfold create_union in H. cbv zeta in H. apply rbind_Ok in H as ([[[ms e1] ns] bad] & HM & H).
  destruct bad; [apply ok_pair in H as [_ ->]; exfalso; apply Ne, in_or_app; right; apply in_or_app; right; now left|].
  pose proof HM as HT.
  apply (members_text dec_text sch m Hm o fuel (fun v : variantdef => uv_name v) (fun v => uv_comment v) _ _ _ _ _ cls ""
    (union_member java_comment go_quote dec_text sprint) (fun v k M => union_member_text dec_text sch m o fuel v k M) _ [] _ _ _ _ (holds_nil _ _)) in HT as (_ & _ & _ & HH).
  cbn [app] in HH. pose proof (members_gives _ _ _ _ _ _ _ _ _ _ _ _ _ HM q) as G1. rewrite map_map in G1. cbn [fst] in G1. rewrite map_id in G1. clear HM.
  apply rbind_Ok in H as ([args e2] & HA & H). apply rbind_Ok in H as ([mk e3] & HK & H).
  destruct (emit_pretty o) as [pt e4] eqn:Ep. apply rbind_Ok in H as ([inner e5] & HN & H). apply ok_pair in H as [_ ->].
  assert (N5 : ~ In JError e5) by (intros I; apply Ne; do 5 (apply in_or_app; right); exact I).
  assert (Hi : "    " <> "") by discriminate.
  pose proof (nested_gives (fun v : variantdef => uv_name v) (fun v => uv_spec v) variant_slot (fun _ => eq_refl) (fun _ => eq_refl) vs "    " Hi ns HH (fun v _ => struct_gives (uv_spec v)) _ _ HN N5 q) as G5.
  pose proof (union_args_only _ _ _ HA q) as G2.
  assert (G3 : gives e3 q -> exists v, In v vs /\ spec_asks (uv_spec v) false q).
  { intros G. apply (proj1 (pieces_gives _ _ _ _ HK q)) in G as (v & s' & e' & I & H & G). exists v. split; [exact I|].
    apply rbind_Ok in H as (x & Hx & H). apply rbind_Ok in H as (c & _ & H). apply ok_pair in H as [_ ->]. now apply (un_gives _ _ _ _ Hx). }
  pose proof (pretty_gives _ _ q Ep) as G4. clear HA HK HN HH Ep Ne.
  assert (Lo : gives (if jo_lombok o then [JImport "lombok.Data"; JImport "lombok.AllArgsConstructor"; JImport "lombok.Builder"; JImport "lombok.NoArgsConstructor"] else []) q
    <-> jo_lombok o = true /\ In q [Wants "lombok.Data"; Wants "lombok.AllArgsConstructor"; Wants "lombok.Builder"; Wants "lombok.NoArgsConstructor"]).
  { destruct (jo_lombok o); [|rewrite gives_nil; intuition congruence]. rewrite !gives_cons, gives_nil. cbn [asks_with In]. rewrite !some_iff. intuition congruence. }
  rewrite <- !app_assoc. repeat rewrite gives_app. rewrite Lo, G1, G4, G5. repeat rewrite gives_cons. rewrite !gives_nil. unfold jackson. cbn [asks_with]. rewrite !some_iff.
  split.
  - intros [J|[J|[J|[J|[J|[[-> ->]|J]]]]]].
    + apply ca_union; [exact Et|]. unfold annotation. cbn in J |- *. intuition.
    + destruct J as [L J]. now apply ca_lombok.
    + destruct J as (v & I & J). rewrite Ev in I. eapply ca_variant; eassumption.
    + destruct (G2 J) as (v & I & J'). rewrite Ev in I. eapply ca_variant; eassumption.
    + destruct (G3 J) as (v & I & J'). rewrite Ev in I. eapply ca_variant; eassumption.
    + now apply ca_pretty.
    + destruct J as (sl & c & L & S). rewrite Ev in L. eapply ca_inner; eassumption.
  - intros J. inversion J; subst; try (match goal with X : ts_type ts = _ |- _ => rewrite Et in X; discriminate X end).
    + left. match goal with X : In q _ |- _ => unfold annotation in X; cbn in X |- *; intuition end.
    + right. left. split; assumption.
    + right. right. left. eauto.
    + do 5 right. left. auto.
    + do 6 right. eauto.
Qed.
Lemma unit_gives ts thrown cls s e : ts_type ts = "UnitValue" -> create_unit dec_text m o fuel ts cls = Ok (s, e) -> forall q, gives e q <-> casks thrown ts q.
Proof.
  intros Et H q. unfold create_unit in H. apply rbind_Ok in H as (vn & HV & H). apply rbind_Ok in H as (un & HU & H).
  destruct (find_type m (jn_text un)) as [td|]; [|discriminate]. cbv zeta in H. apply ok_pair in H as [_ ->].
  pose proof (name_asks _ _ _ _ _ HV q) as GV. pose proof (name_asks _ _ _ _ _ HU q) as GU.
  rewrite !gives_cons, gives_app, GV, GU. unfold jackson, not_null. cbn [asks_with]. rewrite !some_iff. split.
  - intros [J|[J|[J|J]]]; [apply ca_unit|apply ca_unit|apply ca_value|apply ca_units]; auto; rewrite J; unfold constraint, annotation; cbn; auto.
  - intros J. inversion J; subst; try (match goal with X : ts_type ts = _ |- _ => rewrite Et in X; discriminate X end); auto.
    match goal with X : In q _ |- _ => unfold constraint, annotation in X; cbn in X |- *; intuition end.
Qed.
Lemma class_gives ts cls exc p s e : class_piece dec_text m o fuel ord ts cls exc = Some p -> p = Ok (s, e) -> ~ In JError e ->
  forall q, gives e q <-> casks (str_mem cls exc) ts q.
Proof.
  intros H -> Ne. unfold class_piece in H. cbv zeta in H.
  destruct (_ =?s "Struct") eqn:E1.
  { apply seqb_eq in E1. apply some_eq in H. intros q. rewrite (struct_gives ts _ _ _ _ _ H Ne q). split; [now apply ca_struct|].
    intros J. inversion J; subst; try (match goal with X : ts_type ts = _ |- _ => rewrite E1 in X; discriminate X end). assumption. }
  destruct (_ =?s "UnitValue") eqn:E2; [apply seqb_eq in E2; apply some_eq in H; exact (unit_gives _ _ _ _ _ E2 H)|].
  destruct (_ =?s "Enum") eqn:E3.
  { apply seqb_eq in E3. apply some_eq in H. unfold create_enum in H. apply ok_pair in H as [_ ->]. intros q. rewrite !gives_cons, gives_nil. unfold jackson. cbn [asks_with]. rewrite !some_iff. split.
    - intros J. apply ca_enum; [exact E3|]. unfold annotation. cbn in J |- *. intuition.
    - intros J. inversion J; subst; try (match goal with X : ts_type ts = _ |- _ => rewrite E3 in X; discriminate X end).
      match goal with X : In q _ |- _ => unfold annotation in X; cbn in X |- *; intuition end. }
  destruct (_ =?s "Union") eqn:E4; [|discriminate]. apply seqb_eq in E4. apply some_eq in H. exact (union_gives _ _ _ _ _ E4 H Ne).
Qed.
Lemma class_asks_none thrown ts q : ~ In (ts_type ts) ["Struct"; "UnitValue"; "Enum"; "Union"] -> ~ casks thrown ts q.
Proof. intros N J. apply N. inversion J; subst; cbn; auto. Qed.
End ASKS.
