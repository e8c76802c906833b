(** Facts about the generated Java classes: the Java type of a use of a type. *)
From Verif Require Import GoStr Outcome Value Schema Scalars Model Misc Generator Golang GoServer OpenApi Java JavaModel
  SpecTime SpecMisc SpecModel SpecPV SpecTrace SpecGo SpecJava ModelFacts PVFacts TraceFacts GoModelFacts.
From Coq Require Import Lia.

Lemma prim_table n p : primitive_type n = Some p -> exists b, In (n, p, b) primitives.
Proof.
  unfold primitive_type. intros H.
  repeat match type of H with (if ?a =?s ?b then _ else _) = _ => let E := fresh in destruct (a =?s b) eqn:E;
    [apply seqb_eq in E; subst n; injection H as <-; eexists; cbn; tauto|] end. discriminate.
Qed.
Lemma table_prim n p b : In (n, p, b) primitives -> primitive_type n = Some p.
Proof. intros I. cbn in I. repeat (destruct I as [I|I]; [injection I as <- <- <-; reflexivity|]). destruct I. Qed.
Lemma prim_none n : primitive_type n = None <-> ~ In n (map (fun x => fst (fst x)) primitives).
Proof.
  split.
  - intros E I. apply in_map_iff in I as ([[a p] b] & <- & I). apply table_prim in I. cbn [fst] in E. congruence.
  - intros N. destruct (primitive_type n) as [p|] eqn:E; [|reflexivity]. apply prim_table in E as (b & I). destruct N. apply in_map_iff. exists (n, p, b). auto.
Qed.
Lemma box_prim n : In n boxes -> primitive_type n = None.
Proof. intros I. cbn in I. repeat (destruct I as [<- |I]; [reflexivity|]). destruct I. Qed.
Lemma special_prim n : In n special_names -> primitive_type n = None.
Proof. intros I. cbn in I. repeat (destruct I as [<- |I]; [reflexivity|]). destruct I. Qed.
Lemma table_fun n p b p' b' : In (n, p, b) primitives -> In (n, p', b') primitives -> p = p' /\ b = b'.
Proof.
  assert (F : forall n p b, In (n, p, b) primitives -> find (fun x => fst (fst x) =?s n) primitives = Some (n, p, b)).
  { intros n0 p0 b0 I. cbn in I. repeat (destruct I as [I|I]; [injection I as <- <- <-; reflexivity|]). destruct I. }
  intros I J. apply F in I, J. rewrite I in J. injection J as -> ->. auto.
Qed.

Section USE.
Context (dec_text : decimal -> string) (sch : schema) (m : model) (Hm : new_model sch = Ok m) (o : jopts).
Notation tn := (type_name dec_text m o).
Notation use := (java_use sch (jo_instants o)).
Notation atext := (anno_text go_quote dec_text sprint).

Lemma bool_step f ts : tn f ts "Bool" false = tn f ts "Boolean" false.
Proof. destruct f; reflexivity. Qed.
Lemma must_text r : map atext (must r) = if r then ["@NotNull"] else [].
Proof. destruct r; reflexivity. Qed.
Lemma bounds_text ts : map atext (of_spec bounds ts) = opt_bounds dec_text "Min" "Max" (fun s => s) ts.
Proof. destruct ts as [ts|]; [|reflexivity]. unfold of_spec, opt_bounds, bounds, bound_annos. destruct (ts_min ts), (ts_max ts); reflexivity. Qed.
Lemma dec_bounds_text' ts : map atext (dec_bounds ts) = bound_annos dec_text "DecimalMin" "DecimalMax" go_quote ts.
Proof. unfold dec_bounds, bound_annos. destruct (ts_min ts), (ts_max ts); reflexivity. Qed.
Lemma dec_bounds_text ts : map atext (of_spec dec_bounds ts) = opt_bounds dec_text "DecimalMin" "DecimalMax" go_quote ts.
Proof. destruct ts as [ts|]; [|reflexivity]. exact (dec_bounds_text' ts). Qed.
Lemma sprint_ne z : ("min=" +++ sprint z =?s "") = false.
Proof. reflexivity. Qed.
Lemma string_text ts : map atext (of_spec string_limits ts) = fst (string_annos ts).
Proof.
  destruct ts as [ts|]; [|reflexivity]. unfold of_spec, string_limits, string_annos, size_annos.
  destruct (string_dec (ts_pattern ts) "") as [E|E].
  - rewrite (proj2 (seqb_eq _ _) E). destruct (ts_minsize ts), (ts_maxsize ts); reflexivity.
  - rewrite (proj2 (seqb_neq _ _) E). destruct (ts_minsize ts), (ts_maxsize ts); reflexivity.
Qed.

Definition anon_of (ts : option typespec) (n : string) : option typespec := if string_dec n "Struct" then ts else None.
Lemma anon_other ts n : n <> "Struct" -> anon_of ts n = None.
Proof. unfold anon_of. destruct (string_dec n "Struct"); [contradiction|reflexivity]. Qed.

(** what TypeName does with a name that is no primitive type *)
Definition other_name (f : nat) (ts : option typespec) (n : string) (r : bool) : result unit jname :=
  let annos := if r then ["@NotNull"] else [] in
  match find_type m n with
  | None => Ok (mkJN n annos None [])
  | Some td =>
      let t := ts_type (td_spec td) in
      if str_mem t ["Int8"; "Int16"; "Int32"; "Int64"; "Float32"; "Float64"; "Boolean"] then tn f (Some (td_spec td)) t r
      else if t =?s "String" then tn f (Some (td_spec td)) "String" r
      else if t =?s "Array" then tn f (Some (td_spec td)) "Array" false
      else if t =?s "Map" then tn f (Some (td_spec td)) "Map" false
      else if (t =?s "Struct") && (n =?s "Struct") then Ok (mkJN n annos ts [])
      else if t =?s "UUID" then Ok (mkJN "UUID" annos None [JImport "java.util.UUID"])
      else if t =?s "Decimal" then
        Ok (mkJN "BigDecimal" (annos ++ bound_annos dec_text "DecimalMin" "DecimalMax" go_quote (td_spec td)) None [JImport "java.math.BigDecimal"])
      else if t =?s "Timestamp" then Ok (timestamp_name o ["@JsonDeserialize(using = Util.InstantDeserializer.class)"] annos)
      else Ok (mkJN n annos None [])
  end.
Definition evs (r : bool) : list jevent := if r then [not_null] else [].
Lemma opaque_step f ts n r : opaque n -> tn (S f) ts n r = (x <- other_name f ts n r ;; Ok (with_events (evs r) x)).
Proof.
  intros (P & B & S). apply prim_none in P. cbn [type_name]. rewrite P. replace (if r then None else None) with (@None string) by (destruct r; reflexivity).
  assert (Q : forall x, In x special_names -> (n =?s x) = false) by (intros x I; apply seqb_neq; intros ->; contradiction).
  rewrite (Q "String"), (Q "Decimal"), (Q "Timestamp"), (Q "Array"), (Q "Map"), (Q "UUID"), (Q "Any") by (cbn; tauto).
  destruct (str_mem n boxed_names) eqn:E; [apply str_mem_In in E; contradiction|]. reflexivity.
Qed.
Lemma name_cases n : (exists p b, In (n, p, b) primitives) \/ In n boxes \/ In n special_names \/ opaque n.
Proof.
  destruct (primitive_type n) as [p|] eqn:P; [left; apply prim_table in P as [b I]; eauto|]. right.
  destruct (in_dec string_dec n boxes) as [B|B]; [left; exact B|]. right.
  destruct (in_dec string_dec n special_names) as [S|S]; [left; exact S|]. right. split; [apply prim_none; exact P|]. split; assumption.
Qed.
Lemma opaque_boolean : opaque "Boolean".
Proof. split; [|split]; cbn; intuition discriminate. Qed.
Lemma opaque_struct : opaque "Struct".
Proof. split; [|split]; cbn; intuition discriminate. Qed.

Definition shows (ts : option typespec) (n : string) (r : bool) (x : jname) : Prop :=
  exists t a, use ts n r t a /\ jn_text x = jtype_text t /\ jn_annos x = map atext a /\ jn_anon x = anon_of ts n.
Lemma shows_intro ts n r x t a : use ts n r t a -> jn_text x = jtype_text t -> jn_annos x = map atext a -> jn_anon x = anon_of ts n -> shows ts n r x.
Proof. intros. exists t, a. auto. Qed.
Lemma shows_events e ts n r x : shows ts n r x -> shows ts n r (with_events e x).
Proof. intros (t & a & H). exists t, a. exact H. Qed.

Lemma name_shows f : forall ts n r x, tn f ts n r = Ok x -> shows ts n r x.
Proof.
  induction f as [|f IH]; [discriminate|].
  assert (Op : forall ts n r x, opaque n -> tn (S f) ts n r = Ok x -> shows ts n r x).
  { intros ts n r x On H. rewrite opaque_step in H by exact On. apply rbind_Ok in H as (y & H & E). injection E as <-. apply shows_events. unfold other_name in H.
    destruct (find_type m n) as [td|] eqn:F.
    - pose proof (find_def sch m Hm n td F) as D. cbv zeta in H.
      destruct (str_mem (ts_type (td_spec td)) _) eqn:E1.
      { apply str_mem_In in E1. apply IH in H as (t & a & U & A & B & C). eapply shows_intro; [eapply ju_number; eassumption|exact A|exact B|].
        rewrite C. assert (n <> "Struct") as Ns.
        { intros ->. apply (builtin_def sch m Hm) in D; [|cbn; tauto]. rewrite D in E1. cbn in E1. intuition discriminate. }
        rewrite (anon_other _ n Ns). apply anon_other. intros Es. rewrite Es in E1. cbn in E1. intuition discriminate. }
      assert (No : forall s, n = "Struct" -> ts_type (td_spec td) = s -> s = "Struct").
      { intros s -> <-. apply (builtin_def sch m Hm) in D; [|cbn; tauto]. rewrite D. reflexivity. }
      destruct (_ =?s "String") eqn:E2.
      { apply seqb_eq in E2. apply IH in H as (t & a & U & A & B & C). eapply shows_intro; [eapply ju_text; eassumption|exact A|exact B|].
        rewrite C, !anon_other; [reflexivity| |discriminate]. intros En. specialize (No _ En E2). discriminate. }
      destruct (_ =?s "Array") eqn:E3.
      { apply seqb_eq in E3. apply IH in H as (t & a & U & A & B & C). eapply shows_intro; [eapply ju_container; [exact On|exact D|left; exact E3|rewrite E3; exact U]|exact A|exact B|].
        rewrite C, !anon_other; [reflexivity| |discriminate]. intros En. specialize (No _ En E3). discriminate. }
      destruct (_ =?s "Map") eqn:E4.
      { apply seqb_eq in E4. apply IH in H as (t & a & U & A & B & C). eapply shows_intro; [eapply ju_container; [exact On|exact D|right; exact E4|rewrite E4; exact U]|exact A|exact B|].
        rewrite C, !anon_other; [reflexivity| |discriminate]. intros En. specialize (No _ En E4). discriminate. }
      apply seqb_neq in E2, E3, E4.
      assert (NN : ~ In (ts_type (td_spec td)) numbers) by (intros I; apply str_mem_In in I; unfold numbers in I; congruence).
      destruct ((_ =?s "Struct") && (n =?s "Struct"))%bool eqn:E5.
      { apply andb_true_iff in E5 as [E5 E6]. apply seqb_eq in E5, E6. injection H as <-.
        eapply shows_intro; [eapply ju_class; [exact On|exact D|exact NN|]|reflexivity|symmetry; apply must_text|cbn [jn_anon]; subst n; reflexivity].
        rewrite E5. cbn. intuition discriminate. }
      assert (N6 : n = "Struct" -> False).
      { intros En. specialize (No _ En eq_refl). rewrite No, En in E5. discriminate. }
      destruct (_ =?s "UUID") eqn:E6.
      { apply seqb_eq in E6. injection H as <-. eapply shows_intro; [eapply ju_uuids; eassumption|reflexivity|symmetry; apply must_text|symmetry; apply anon_other; exact N6]. }
      destruct (_ =?s "Decimal") eqn:E7.
      { apply seqb_eq in E7. injection H as <-. eapply shows_intro; [eapply ju_decimals; eassumption|reflexivity| |symmetry; apply anon_other; exact N6].
        cbn [jn_annos]. rewrite map_app, must_text, dec_bounds_text'. reflexivity. }
      destruct (_ =?s "Timestamp") eqn:E8.
      { apply seqb_eq in E8. injection H as <-. eapply shows_intro; [eapply ju_timestamps; eassumption| | |].
        - unfold timestamp_name, stamp_type. destruct (jo_instants o); reflexivity.
        - rewrite map_app, must_text. unfold timestamp_name. destruct (jo_instants o); [reflexivity|]. cbn [jn_annos map]. now rewrite app_nil_r.
        - rewrite (anon_other _ n N6). unfold timestamp_name. destruct (jo_instants o); reflexivity. }
      apply seqb_neq in E6, E7, E8. injection H as <-.
      eapply shows_intro; [eapply ju_class; [exact On|exact D|exact NN|]|reflexivity|symmetry; apply must_text|symmetry; apply anon_other; exact N6].
      cbn. intuition congruence.
    - injection H as <-. eapply shows_intro; [apply ju_unknown; [exact On|apply (find_none sch m Hm); exact F]|reflexivity|symmetry; apply must_text|].
      symmetry. apply anon_other. intros ->. apply (proj1 (find_none sch m Hm "Struct") F (ts_of "Struct")).
      exists (mkTD "Struct" "" [] (ts_of "Struct")). split; [left; split; [cbn; tauto|reflexivity]|reflexivity]. }
  intros ts n r x H. destruct (name_cases n) as [(p & b & I)|[B|[S|On]]]; [| | |apply Op; assumption].
  - destruct r.
    + cbn [type_name] in H. rewrite (table_prim _ _ _ I) in H. injection H as <-. eapply shows_intro; [eapply ju_primitive; exact I|reflexivity|reflexivity|].
      symmetry. apply anon_other. intros ->. apply table_prim in I. discriminate.
    + destruct (string_dec n "Bool") as [->|N].
      * rewrite bool_step in H. destruct (Op _ _ _ _ opaque_boolean H) as (t & a & U & A & B & C). eapply shows_intro; [apply ju_bool; exact U|exact A|exact B|exact C].
      * assert (E : x = mkJN b (opt_bounds dec_text "Min" "Max" (fun s => s) ts) None []).
        { clear -I N H. cbn in I. repeat (destruct I as [I|I]; [injection I as <- <- <-; try congruence; cbn in H; injection H as <-; reflexivity|]). destruct I. }
        subst x. eapply shows_intro; [eapply ju_boxed; [exact I|exact N]|reflexivity|cbn [jn_annos]; symmetry; apply bounds_text|].
        symmetry. apply anon_other. intros ->. apply table_prim in I. discriminate.
  - assert (E : x = with_events (evs r) (mkJN n ((if r then ["@NotNull"] else []) ++ opt_bounds dec_text "Min" "Max" (fun s => s) ts) None [])).
    { clear -B H. cbn in B. repeat (destruct B as [<- |B]; [destruct r; cbn in H; injection H as <-; reflexivity|]). destruct B. }
    subst x. eapply shows_intro; [apply ju_box; exact B|reflexivity|cbn [jn_annos with_events]; rewrite map_app, must_text, bounds_text; reflexivity|].
    symmetry. apply anon_other. intros ->. cbn in B. intuition discriminate.
  - cbn [special_names In] in S.
    destruct S as [<- |[<- |[<- |[<- |[<- |[<- |[<- |[]]]]]]]]; cbn -[rbind] in H; (replace (if r then None else None) with (@None string) in H by (destruct r; reflexivity));
      try change (match None with Some p => Ok (mkJN p [] None []) | None => ?y end) with y in H; apply rbind_Ok in H as (y & H & E); injection E as <-; apply shows_events.
    + destruct (string_annos ts) as [a e] eqn:E. injection H as <-. eapply shows_intro; [apply ju_string|reflexivity| |reflexivity].
      cbn [jn_annos]. rewrite map_app, must_text, string_text, E. reflexivity.
    + injection H as <-. eapply shows_intro; [apply ju_decimal|reflexivity| |reflexivity]. cbn [jn_annos]. rewrite map_app, must_text, dec_bounds_text. reflexivity.
    + injection H as <-. eapply shows_intro; [apply ju_timestamp| | |].
      * unfold timestamp_name, stamp_type. destruct (jo_instants o); reflexivity.
      * rewrite map_app, must_text. unfold timestamp_name. destruct (jo_instants o); [reflexivity|]. cbn [jn_annos map]. now rewrite app_nil_r.
      * unfold timestamp_name. destruct (jo_instants o); reflexivity.
    + destruct ts as [ts|].
      * destruct (find_type m (ts_items ts)) as [td|] eqn:F; [|discriminate]. apply rbind_Ok in H as (i & H & E). injection E as <-.
        apply IH in H as (t & a & U & A & _). eapply shows_intro; [eapply ju_list_of; [exact (find_def sch m Hm _ _ F)|exact U]|cbn [jn_text jtype_text]; now rewrite A|symmetry; apply must_text|reflexivity].
      * injection H as <-. eapply shows_intro; [apply ju_list|reflexivity|symmetry; apply must_text|reflexivity].
    + destruct ts as [ts|].
      * destruct (find_type m (ts_keys ts)) as [kd|] eqn:K; [|discriminate]. apply rbind_Ok in H as (k & H & E).
        destruct (find_type m (ts_items ts)) as [td|] eqn:F; [|discriminate]. apply rbind_Ok in E as (i & H' & E). injection E as <-.
        apply IH in H as (t & a & U & A & _). apply IH in H' as (t' & a' & U' & A' & _).
        eapply shows_intro; [eapply ju_map_of; [exact (find_def sch m Hm _ _ K)|exact U|exact (find_def sch m Hm _ _ F)|exact U']|cbn [jn_text jtype_text]; now rewrite A, A'|symmetry; apply must_text|reflexivity].
      * injection H as <-. eapply shows_intro; [apply ju_map|reflexivity|symmetry; apply must_text|reflexivity].
    + injection H as <-. eapply shows_intro; [apply ju_uuid|reflexivity|symmetry; apply must_text|reflexivity].
    + injection H as <-. eapply shows_intro; [apply ju_any|reflexivity|symmetry; apply must_text|reflexivity].
Qed.

Lemma def_one n ts ts' : defines sch n ts -> defines sch n ts' -> ts = ts'.
Proof. intros D D'. apply (def_find sch m Hm) in D as (td & F & <-). apply (def_find sch m Hm) in D' as (td' & F' & <-). congruence. Qed.

(** with enough fuel *)
Definition ev (P : nat -> Prop) : Prop := exists f0, forall f, f0 <= f -> P f.
Lemma ev_now (P : nat -> Prop) : (forall f, P f) -> ev P.
Proof. intros H. exists 0. auto. Qed.
Lemma ev_and P Q : ev P -> ev Q -> ev (fun f => P f /\ Q f).
Proof. intros [a A] [b B]. exists (a + b). intros f L. split; [apply A|apply B]; lia. Qed.
Lemma ev_mono (P Q : nat -> Prop) : (forall f, P f -> Q f) -> ev P -> ev Q.
Proof. intros H [a A]. exists a. auto. Qed.
Lemma ev_succ (P Q : nat -> Prop) : (forall f, P f -> Q (S f)) -> ev P -> ev Q.
Proof. intros H [a A]. exists (S a). intros [|f] L; [lia|]. apply H, A. lia. Qed.
Lemma ev_all {A} (P : A -> nat -> Prop) l : (forall x, In x l -> ev (P x)) -> ev (fun f => forall x, In x l -> P x f).
Proof.
  induction l as [|x l IH]; intros H; [apply ev_now; intros f y []|].
  apply (ev_mono (fun f => P x f /\ forall y, In y l -> P y f)); [intros f [A1 A2] y [<- |I]; auto|].
  apply ev_and; [apply H; now left|apply IH; intros y I; apply H; now right].
Qed.
Definition has_name (ts : option typespec) (n : string) (r : bool) (t : string) (a : list string) (f : nat) : Prop :=
  exists x, tn f ts n r = Ok x /\ jn_text x = t /\ jn_annos x = a.

Lemma mem_numbers s : str_mem s ["Int8"; "Int16"; "Int32"; "Int64"; "Float32"; "Float64"; "Boolean"] = true <-> In s numbers.
Proof. apply str_mem_In. Qed.
Lemma number_not s x : In s numbers -> ~ In x numbers -> (s =?s x) = false.
Proof. intros I N. apply seqb_neq. now intros ->. Qed.
Lemma opaque_named f ts n r t a x : opaque n -> other_name f ts n r = Ok x -> jn_text x = t -> jn_annos x = a -> has_name ts n r t a (S f).
Proof. intros On H T A. unfold has_name. rewrite opaque_step by exact On. rewrite H. cbn [rbind]. eexists. repeat split; assumption. Qed.
Lemma stamp_name e an : jn_text (timestamp_name o e an) = jtype_text (stamp_type (jo_instants o))
  /\ jn_annos (timestamp_name o e an) = an ++ if jo_instants o then e ++ ["@JsonSerialize(using = Util.InstantSerializer.class)"] else [].
Proof. unfold timestamp_name, stamp_type. destruct (jo_instants o); cbn; [auto|]. now rewrite app_nil_r. Qed.
Ltac at_once := apply (ev_succ (fun _ => True)); [intros f _|apply ev_now; auto].
Lemma use_named ts n r t a : use ts n r t a -> ev (has_name ts n r (jtype_text t) (map atext a)).
Proof.
  induction 1 as [ts n p b I|ts n p b I N|ts t a U IH|ts n r I|ts r|ts r|ts r|r|ts ti t a r D U IH|r|ts tk k a ti t b r K U IH D V IHV|ts r|ts r|ts n r On N
    |ts n td r t a On D T U IH|ts n td r t a On D T U IH|ts n td r t a On D T U IH|ts n td r On D T|ts n td r On D T|ts n td r On D T|ts n td r On D T T'].
  - at_once. unfold has_name. cbn [type_name]. rewrite (table_prim _ _ _ I). eexists. repeat split.
  - at_once. unfold has_name. rewrite bounds_text.
    clear -I N. cbn in I. repeat (destruct I as [I|I]; [injection I as <- <- <-; try congruence; cbn; eexists; repeat split|]). destruct I.
  - revert IH. apply ev_mono. intros f. unfold has_name. now rewrite bool_step.
  - at_once. unfold has_name. rewrite map_app, must_text, bounds_text.
    clear -I. cbn in I. repeat (destruct I as [<- |I]; [destruct r; cbn; eexists; repeat split|]). destruct I.
  - at_once. unfold has_name. rewrite map_app, must_text, string_text. cbn -[string_annos]. destruct (string_annos ts). destruct r; cbn; eexists; repeat split.
  - at_once. unfold has_name. rewrite map_app, must_text, dec_bounds_text. destruct r; cbn; eexists; repeat split.
  - at_once. unfold has_name. rewrite map_app, must_text. destruct r; cbn -[timestamp_name]; eexists; (split; [reflexivity|]);
      (split; [apply stamp_name|]); cbn [with_events jn_annos]; rewrite (proj2 (stamp_name _ _)); destruct (jo_instants o); reflexivity.
  - at_once. unfold has_name. rewrite must_text. destruct r; cbn; eexists; repeat split.
  - revert IH. apply ev_succ. intros f (x & H & T & A). unfold has_name. rewrite must_text. destruct (def_find sch m Hm _ _ D) as (td & F & <-).
    destruct r; cbn -[rbind]; rewrite F, H; cbn [rbind]; eexists; (split; [reflexivity|]); cbn; rewrite T; auto.
  - at_once. unfold has_name. rewrite must_text. destruct r; cbn; eexists; repeat split.
  - apply (ev_succ (fun f => has_name (Some tk) (ts_keys ts) false (jtype_text k) (map atext a) f /\ has_name (Some ti) (ts_items ts) false (jtype_text t) (map atext b) f)); [|now apply ev_and].
    intros f [(x & H & T & _) (y & G & T' & _)]. unfold has_name. rewrite must_text. destruct (def_find sch m Hm _ _ D) as (td & F & <-). destruct (def_find sch m Hm _ _ K) as (kd & FK & <-).
    destruct r; cbn -[rbind]; rewrite FK, H; cbn [rbind]; rewrite F, G; cbn [rbind]; eexists; (split; [reflexivity|]); cbn; rewrite T, T'; auto.
  - at_once. unfold has_name. rewrite must_text. destruct r; cbn; eexists; repeat split.
  - at_once. unfold has_name. rewrite must_text. destruct r; cbn; eexists; repeat split.
  - at_once. rewrite must_text. eapply (opaque_named f _ _ _ _ _ (mkJN n (if r then ["@NotNull"] else []) None [])); [exact On| |reflexivity|reflexivity]. unfold other_name. rewrite (proj2 (find_none sch m Hm n) N). reflexivity.
  - revert IH. apply ev_succ. intros f (x & H & E & A). destruct (def_find sch m Hm _ _ D) as (d & F & <-).
    eapply opaque_named; [exact On| |exact E|exact A]. unfold other_name. rewrite F. cbv zeta. rewrite (proj2 (mem_numbers _) T). exact H.
  - revert IH. apply ev_succ. intros f (x & H & E & A). destruct (def_find sch m Hm _ _ D) as (d & F & <-).
    eapply opaque_named; [exact On| |exact E|exact A]. unfold other_name. rewrite F. cbv zeta. rewrite T. exact H.
  - revert IH. apply ev_succ. intros f (x & H & E & A). destruct (def_find sch m Hm _ _ D) as (d & F & <-).
    eapply opaque_named; [exact On| |exact E|exact A]. unfold other_name. rewrite F. cbv zeta. destruct T as [T|T]; rewrite T in H |- *; exact H.
  - at_once. destruct (def_find sch m Hm _ _ D) as (d & F & <-). rewrite must_text.
    eapply (opaque_named f _ _ _ _ _ (mkJN "UUID" (if r then ["@NotNull"] else []) None [JImport "java.util.UUID"])); [exact On| |reflexivity|reflexivity].
    unfold other_name. rewrite F. cbv zeta. rewrite T. reflexivity.
  - at_once. destruct (def_find sch m Hm _ _ D) as (d & F & <-). rewrite map_app, must_text, dec_bounds_text'.
    eapply (opaque_named f _ _ _ _ _ (mkJN "BigDecimal" (_ ++ _) None [JImport "java.math.BigDecimal"])); [exact On| |reflexivity|reflexivity]. unfold other_name. rewrite F. cbv zeta. rewrite T. reflexivity.
  - at_once. destruct (def_find sch m Hm _ _ D) as (d & F & <-). rewrite map_app, must_text.
    eapply (opaque_named f _ _ _ _ _ (timestamp_name o ["@JsonDeserialize(using = Util.InstantDeserializer.class)"] (if r then ["@NotNull"] else []))); [exact On| |apply stamp_name|rewrite (proj2 (stamp_name _ _)); destruct (jo_instants o); reflexivity].
    unfold other_name. rewrite F. cbv zeta. rewrite T. reflexivity.
  - at_once. destruct (def_find sch m Hm _ _ D) as (d & F & <-). rewrite must_text.
    destruct (str_mem (ts_type (td_spec d)) ["Int8"; "Int16"; "Int32"; "Int64"; "Float32"; "Float64"; "Boolean"]) eqn:E; [apply mem_numbers in E; contradiction|].
    assert (Q : forall s, In s ["String"; "Array"; "Map"; "UUID"; "Decimal"; "Timestamp"] -> (ts_type (td_spec d) =?s s) = false)
      by (intros s I; apply seqb_neq; intros Es; apply T'; rewrite Es; exact I).
    unfold has_name. rewrite opaque_step by exact On. unfold other_name. rewrite F. cbv zeta.
    rewrite E, (Q "String"), (Q "Array"), (Q "Map"), (Q "UUID"), (Q "Decimal"), (Q "Timestamp") by (cbn; tauto).
    destruct (_ && _)%bool; cbn; eexists; repeat split.
Qed.
(** a use of a type has one Java text *)
Lemma use_one ts n r t a t' a' : use ts n r t a -> use ts n r t' a' -> jtype_text t = jtype_text t' /\ map atext a = map atext a'.
Proof.
  intros U V. apply use_named in U. apply use_named in V. destruct (ev_and _ _ U V) as [f0 H]. destruct (H f0 (le_n _)) as [(x & E & <- & <-) (y & G & <- & <-)].
  rewrite E in G. injection G as ->. auto.
Qed.
End USE.
