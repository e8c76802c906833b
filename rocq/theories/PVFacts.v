(** Proofs about the parser's checks. *)
From Coq Require Import Permutation.
From Verif Require Import GoStr Outcome Value Schema Scalars Time Model Misc ParserValidate
  SpecTime SpecModel ModelFacts ValidateFacts SpecMisc MiscFacts SpecPV.

Lemma no_char_smem c s : no_char c s <-> smem c s = false.
Proof.
  unfold no_char. induction s as [|a s IH]; simpl.
  - split; [reflexivity|]. intros _ (x & y & E). destruct x; discriminate.
  - rewrite Bool.orb_false_iff, ceqb_neq, <- IH. split.
    + intro H. split.
      * intros ->. apply H. exists "", s. reflexivity.
      * intros (x & y & ->). apply H. exists (String a x), y. reflexivity.
    + intros [H1 H2] (x & y & E). destruct x as [|b x]; injection E as -> ->; [now apply H1|].
      apply H2. eauto.
Qed.

(** ** Templates *)
Lemma scan_lit b a x : smem "{" a = false -> smem "}" a = false -> (b = true -> smem "/" a = false) ->
  scan_template b (a +++ x) = scan_template b x.
Proof.
  induction a as [|c a IH]; simpl; [reflexivity|]. rewrite !Bool.orb_false_iff.
  intros [-> H1] [-> H2] H3.
  destruct (Ascii.eqb c "/") eqn:E.
  - destruct b; [destruct (H3 eq_refl); discriminate|]. apply IH; auto. intro; discriminate.
  - apply IH; auto. intro Hb. exact (proj2 (H3 Hb)).
Qed.

Lemma template_cons c s : c <> "{"%char -> c <> "}"%char -> template s -> template (String c s).
Proof.
  intros H1 H2 H. destruct H as [a Ha1 Ha2|a v r Ha1 Ha2 Hv1 Hv2 Hv3 Hr].
  - apply tp_end; apply no_char_smem; simpl; (apply Bool.orb_false_iff; split; [now apply ceqb_neq|now apply no_char_smem]).
  - apply (tp_var (String c a)); auto;
      apply no_char_smem; simpl; (apply Bool.orb_false_iff; split; [now apply ceqb_neq|now apply no_char_smem]).
Qed.
Lemma scan_template_spec s :
  (scan_template false s = true -> template s) /\
  (scan_template true s = true -> exists v r, s = v +++ "}" +++ r /\ no_char "{" v /\ no_char "}" v /\ no_char "/" v /\ template r).
Proof.
  assert (Hnil : forall c, no_char c "") by (intro; now apply no_char_smem).
  induction s as [|c s [IH1 IH2]].
  - split; [intros _; apply tp_end; apply Hnil|discriminate].
  - cbn [scan_template]. destruct (Ascii.eqb c "{") eqn:E1; [|destruct (Ascii.eqb c "}") eqn:E2].
    + apply ceqb_eq in E1. subst c. cbn [negb andb]. split; [|discriminate].
      intro H. destruct (IH2 H) as (v & r & -> & Hv1 & Hv2 & Hv3 & Hr).
      exact (tp_var "" v r (Hnil _) (Hnil _) Hv1 Hv2 Hv3 Hr).
    + apply ceqb_eq in E2. subst c. cbn [andb]. split; [discriminate|].
      intro H. exists "", s. repeat (split; [solve [apply Hnil|reflexivity]|]). exact (IH1 H).
    + apply ceqb_neq in E1, E2. split.
      * intro H. apply template_cons; auto. apply IH1. destruct (Ascii.eqb c "/"); auto.
      * destruct (Ascii.eqb c "/") eqn:E3; [discriminate|]. apply ceqb_neq in E3.
        intro H. destruct (IH2 H) as (v & r & -> & Hv1 & Hv2 & Hv3 & Hr).
        exists (String c v), r. split; [reflexivity|].
        assert (Hc : forall d, c <> d -> no_char d v -> no_char d (String c v)).
        { intros d Hd Hn. apply no_char_smem. simpl. apply Bool.orb_false_iff.
          split; [now apply ceqb_neq|now apply no_char_smem]. }
        auto 8.
Qed.
Lemma template_scan s : template s -> scan_template false s = true.
Proof.
  induction 1 as [a H1 H2|a v r H1 H2 H3 H4 H5 Hr IH]; rewrite no_char_smem in *.
  - rewrite <- (append_nil_r a). rewrite scan_lit; auto; discriminate.
  - rewrite scan_lit by (auto; discriminate). cbn. rewrite scan_lit by (rewrite ?no_char_smem in *; auto). exact IH.
Qed.

Lemma before_query_part p a : before_query p = a <-> path_part p a.
Proof.
  unfold before_query, path_part. rewrite no_char_smem. destruct (cut "?" p) as [[x y]|] eqn:E.
  - apply cut_Some in E. destruct E as [-> Hx]. split.
    + intros <-. split; [exact Hx|]. right. exists y. reflexivity.
    + intros [Ha [E|[q E]]].
      * subst a. rewrite smem_app in Ha. simpl in Ha. apply Bool.orb_false_iff in Ha. destruct Ha; discriminate.
      * assert (E1 : cut "?" (x +++ String "?" y) = Some (x, y)) by (apply cut_Some; auto).
        assert (E2 : cut "?" (x +++ String "?" y) = Some (a, q)) by (apply cut_Some; auto).
        congruence.
  - apply cut_None in E. split.
    + intros <-. auto.
    + intros [Ha [E'|[q ->]]]; [exact E'|]. rewrite smem_app in E. simpl in E.
      apply Bool.orb_false_iff in E. destruct E; discriminate.
Qed.

Lemma http_path_iff p : validate_http_path p = true <-> exists a, path_part p a /\ template a.
Proof.
  unfold validate_http_path. split.
  - intro H. exists (before_query p). split; [now apply before_query_part|]. now apply scan_template_spec.
  - intros (a & Ha & Ht). apply before_query_part in Ha. subst a. now apply template_scan.
Qed.

(** ** Parameter sources *)
Lemma query_piece_split qs before q : query_piece qs before q <-> exists after, split "&" qs = before ++ q :: after.
Proof.
  split.
  - induction 1 as [q H|q r H|x r before q H _ (after & IH)]; rewrite no_char_smem in H.
    + exists []. now apply split_noc.
    + exists (split "&" r). cbn. now rewrite split_app.
    + exists after. cbn. rewrite split_app by exact H. now rewrite IH.
  - intros (after & E). revert qs E. induction before as [|x before IH]; intros qs E; cbn [app] in E.
    + assert (Hq : smem "&" q = false) by (apply (split_no_sep _ qs); rewrite E; now left).
      rewrite <- (join_split "&" qs), E. destruct after as [|y after]; cbn [join].
      * apply qp_last. now apply no_char_smem.
      * apply qp_first. now apply no_char_smem.
    + assert (Hx : smem "&" x = false) by (apply (split_no_sep _ qs); rewrite E; now left).
      assert (Hqs : qs = x +++ "&" +++ join "&" (before ++ q :: after)).
      { rewrite <- (join_split "&" qs), E. destruct before; reflexivity. }
      rewrite Hqs. apply qp_next; [now apply no_char_smem|]. apply IH.
      apply split_join; [destruct before; discriminate|].
      intros y Hy. apply (split_no_sep _ qs). rewrite E. now right.
Qed.

Definition eq_match (mtch k q : string) : Prop := exists r, split "=" q = k :: mtch :: r.
Lemma find_query_Some mtch l k : find_query mtch l = Some k <->
  exists before q after, l = before ++ q :: after /\ eq_match mtch k q /\ forall x k', In x before -> ~ eq_match mtch k' x.
Proof.
  induction l as [|x l IH]; cbn [find_query].
  - split; [discriminate|]. intros (b & q & a & E & _). destruct b; discriminate.
  - assert (Hd : (exists k0, eq_match mtch k0 x) \/ forall k0, ~ eq_match mtch k0 x).
    { unfold eq_match. destruct (split "=" x) as [|k0 [|v r]]; [right|right|]; try (intros k1 (r1 & E); discriminate).
      destruct (v =?s mtch) eqn:E; [apply seqb_eq in E; subst; left; eauto|].
      apply seqb_neq in E. right. intros k1 (r1 & E1). congruence. }
    destruct Hd as [[k0 Hk0]|Hno].
    + destruct Hk0 as [r Hr]. rewrite Hr, seqb_refl. split.
      * intros [= <-]. exists [], x, l. split; [reflexivity|]. split; [exists r; exact Hr|]. intros ? ? [].
      * intros (b & q & a & E & Hq & Hb). destruct b as [|y b]; cbn in E.
        -- injection E as <- <-. destruct Hq as [r' Hr']. congruence.
        -- injection E as <- ->. exfalso. apply (Hb x k0); [now left|]. exists r. exact Hr.
    + assert (E : match split "=" x with k :: v :: _ => if v =?s mtch then Some k else find_query mtch l | _ => find_query mtch l end
                  = find_query mtch l).
      { destruct (split "=" x) as [|k0 [|v r]] eqn:E; try reflexivity.
        destruct (v =?s mtch) eqn:Ev; [|reflexivity]. apply seqb_eq in Ev. subst.
        exfalso. apply (Hno k0). exists r. exact E. }
      rewrite E, IH. split.
      * intros (b & q & a & -> & Hq & Hb). exists (x :: b), q, a. split; [reflexivity|]. split; [exact Hq|].
        intros y k' [<-|Hy]; [apply Hno|now apply Hb].
      * intros (b & q & a & E' & Hq & Hb). destruct b as [|y b]; cbn in E'.
        -- injection E' as -> ->. exfalso. now apply (Hno k).
        -- injection E' as <- ->. exists b, q, a. split; [reflexivity|]. split; [exact Hq|].
           intros z k' Hz. apply Hb. now right.
Qed.
Lemma binds_match name k q : binds name k q <-> eq_match ("{" +++ name +++ "}") k q.
Proof.
  unfold binds, eq_match. rewrite !no_char_smem. split.
  - intros (Hk & Hn & Hq).
    assert (Hm : smem "=" ("{" +++ name +++ "}") = false) by (simpl; rewrite smem_app, Hn; reflexivity).
    destruct Hq as [-> | [junk ->]].
    + exists []. cbn. rewrite split_app by exact Hk. now rewrite (split_noc _ (String "{" (name +++ "}"))).
    + exists (split "=" junk). cbn. rewrite split_app by exact Hk.
      change (String "{" (name +++ String "}" (String "=" junk))) with ("{" +++ name +++ "}" +++ String "=" junk).
      rewrite <- !append_assoc. rewrite split_app by (rewrite append_assoc; exact Hm). now rewrite append_assoc.
  - intros (r & E).
    assert (Hk : smem "=" k = false) by (apply (split_no_sep _ q); rewrite E; now left).
    assert (Hm : smem "=" ("{" +++ name +++ "}") = false) by (apply (split_no_sep _ q); rewrite E; right; now left).
    split; [exact Hk|]. split.
    + cbn in Hm. rewrite smem_app in Hm. apply Bool.orb_false_iff in Hm. apply Hm.
    + rewrite <- (join_split "=" q), E. destruct r as [|y r]; [left|right; exists (join "=" (y :: r))]; cbn [join]; sapp; reflexivity.
Qed.

Lemma template_cut tmpl : exists q,
  match cut "?" tmpl with Some (a, b) => (a, b) | None => (tmpl, "") end = (before_query tmpl, q)
  /\ (forall q', query_part tmpl q' -> q' = q) /\ (query_part tmpl q \/ q = "").
Proof.
  unfold before_query, query_part. destruct (cut "?" tmpl) as [[x y]|] eqn:E.
  - exists y. split; [reflexivity|]. split; [|left; apply cut_Some in E; destruct E as [-> Hx]; exists x; rewrite no_char_smem; auto].
    intros q (a & Ha & E'). rewrite no_char_smem in Ha.
    assert (cut "?" tmpl = Some (a, q)) by (apply cut_Some; auto). congruence.
  - exists "". split; [reflexivity|]. split; [|now right].
    intros q (a & Ha & E'). rewrite no_char_smem in Ha.
    assert (cut "?" tmpl = Some (a, q)) by (apply cut_Some; auto). congruence.
Qed.

Lemma in_path_iff tmpl name : in_path tmpl name <-> contains ("{" +++ name +++ "}") (before_query tmpl) = true.
Proof.
  unfold in_path. rewrite contains_spec. split.
  - intros (p & Hp & a & b & ->). apply before_query_part in Hp. rewrite Hp. exists a, b. sapp. reflexivity.
  - intros (a & b & E). exists (before_query tmpl). split; [now apply before_query_part|].
    exists a, b. rewrite E. sapp. reflexivity.
Qed.
Lemma in_query_iff tmpl name k : forall q,
  (forall q', query_part tmpl q' -> q' = q) /\ (query_part tmpl q \/ q = "") ->
  (in_query tmpl name k <-> find_query ("{" +++ name +++ "}") (split "&" q) = Some k).
Proof.
  intros q [Hf Hq]. rewrite find_query_Some. unfold in_query. split.
  - intros (qs & before & x & Hqs & Hp & Hb & Hn). apply Hf in Hqs. subst qs.
    apply query_piece_split in Hp. destruct Hp as [after E]. exists before, x, after.
    split; [exact E|]. split; [now apply binds_match|]. intros y k' Hy Hm. apply (Hn y k' Hy). now apply binds_match.
  - intros (before & x & after & E & Hm & Hn). destruct Hq as [Hq | ->].
    + exists q, before, x. split; [exact Hq|]. split; [apply query_piece_split; eauto|].
      split; [now apply binds_match|]. intros y k' Hy Hb. apply (Hn y k' Hy). now apply binds_match.
    + exfalso. cbn in E. destruct before as [|b before]; cbn in E; [|destruct before; discriminate].
      injection E as <- <-. destruct Hm as [r Hr]. discriminate.
Qed.

Definition source_ok (tmpl name header : string) (s : source) : Prop :=
  match s with
  | FromHeader h => header <> "" /\ h = header
  | FromPath => header = "" /\ in_path tmpl name
  | FromQuery k => header = "" /\ ~ in_path tmpl name /\ in_query tmpl name k
  | FromBody => header = "" /\ ~ in_path tmpl name /\ forall k, ~ in_query tmpl name k
  end.
Lemma parameter_source_iff tmpl name header s : parameter_source tmpl name header = s <-> source_ok tmpl name header s.
Proof.
  assert (Hok : source_ok tmpl name header (parameter_source tmpl name header)).
  { unfold parameter_source. destruct (header =?s "") eqn:Eh; cbn [negb].
    - apply seqb_eq in Eh. destruct (template_cut tmpl) as (q & -> & Hq).
      destruct (contains _ (before_query tmpl)) eqn:Ec.
      + split; [exact Eh|]. now apply in_path_iff.
      + assert (Hn : ~ in_path tmpl name) by (rewrite in_path_iff; congruence).
        destruct (find_query _ _) as [k|] eqn:Ef.
        * split; [exact Eh|]. split; [exact Hn|]. now apply (in_query_iff _ _ _ _ Hq).
        * split; [exact Eh|]. split; [exact Hn|]. intros k Hk. apply (in_query_iff _ _ _ _ Hq) in Hk. congruence.
    - apply seqb_neq in Eh. split; auto. }
  split; [intros <-; exact Hok|]. intro Hs.
  destruct (parameter_source tmpl name header) as [h| |k|] eqn:E, s as [h'| |k'|];
    cbn in Hok, Hs; repeat match goal with H : _ /\ _ |- _ => destruct H end; subst; try congruence; try contradiction;
    try match goal with H : forall k, ~ in_query _ _ k, H' : in_query _ _ _ |- _ => destruct (H _ H') end.
  destruct (template_cut tmpl) as (q & _ & Hq).
  match goal with H1 : in_query _ _ k, H2 : in_query _ _ k' |- _ =>
    apply (in_query_iff _ _ _ _ Hq) in H1, H2; congruence end.
Qed.

(** ** The checks as a whole *)
Lemma each_ok {A E} (f : A -> result E unit) l : each f l = Ok tt <-> forall x, In x l -> f x = Ok tt.
Proof.
  induction l as [|x l IH]; cbn [each].
  - split; [intros _ ? []|reflexivity].
  - split.
    + intro H. destruct (f x) as [[]| | |] eqn:E1; try discriminate. cbn [rbind] in H.
      intros y [<-|Hy]; [exact E1|]. now apply IH.
    + intro H. rewrite (H x (or_introl eq_refl)). cbn [rbind]. apply IH. intros y Hy. apply H. now right.
Qed.
Section W.
Variable X : ext.
Variable sch : schema.
Variable m : model.
Hypothesis Hm : new_model sch = Ok m.

Lemma schema_of_model : m_schema m = sch.
Proof. exact (proj1 (new_model_inv sch m Hm)). Qed.

Lemma need_ok n td : need m n = Ok td <-> declares sch n td.
Proof.
  unfold need. rewrite <- (find_type_spec sch m Hm). destruct (find_type m n); split; congruence.
Qed.
Lemma need_defined n : (exists td, need m n = Ok td) <-> defined sch n.
Proof.
  unfold defined, defines. split.
  - intros (td & H). apply need_ok in H. eauto.
  - intros (ts & td & H & _). exists td. now apply need_ok.
Qed.
Lemma need_unit n : (x <- need m n ;; Ok tt) = @Ok pverror _ tt <-> defined sch n.
Proof.
  rewrite rbind_Ok, <- need_defined. split; intros (td & H); [exists td; tauto|exists td; auto].
Qed.
Lemma any_defined : defined sch "Any".
Proof. exists (ts_of "Any"). eexists. split; [left; split; [simpl; tauto|reflexivity]|reflexivity]. Qed.
Lemma string_defined : defined sch "String".
Proof. exists (ts_of "String"). eexists. split; [left; split; [simpl; tauto|reflexivity]|reflexivity]. Qed.

Lemma need_param_ok n : need_param m n = Ok tt <-> defined_or_none sch n.
Proof.
  unfold need_param, defined_or_none. destruct (n =?s "") eqn:E1; cbn [orb].
  - apply seqb_eq in E1. tauto.
  - apply seqb_neq in E1. destruct (n =?s "Any") eqn:E2.
    + apply seqb_eq in E2. subst. split; [intros _; right; exact any_defined|reflexivity].
    + rewrite need_unit. tauto.
Qed.
Lemma reference_ok td : validate_reference m td = Ok tt <-> defined_or_none sch (ts_reference (td_spec td)).
Proof.
  unfold validate_reference, defined_or_none. destruct (_ =?s "") eqn:E.
  - apply seqb_eq in E. tauto.
  - apply seqb_neq in E. rewrite need_unit. tauto.
Qed.

(** ** Fuel *)
Lemma conforms_ok fuel ts v : vwf v -> conforms X m fuel ts v = Ok tt -> accepts X sch ts v.
Proof.
  intros Hw H. apply (validate_spec_iff X sch m Hm ts v [] Hw). exists fuel.
  unfold conforms in H. destruct (validate_spec X m fuel [] ts v) as [[]| | |]; try discriminate; reflexivity.
Qed.
Lemma conforms_ev ts v : vwf v -> accepts X sch ts v ->
  exists N, forall fuel, N <= fuel -> conforms X m fuel ts v = Ok tt.
Proof.
  intros Hw H. apply (validate_spec_iff X sch m Hm ts v [] Hw) in H. destruct H as [f Hf].
  exists f. intros fuel Hle. unfold conforms.
  rewrite (fuel_mono X m f fuel [] ts v Hle) by congruence. now rewrite Hf.
Qed.
Lemma eventually_all {A} (P : A -> nat -> Prop) (l : list A) :
  (forall x, In x l -> exists N, forall f, N <= f -> P x f) ->
  exists N, forall f, N <= f -> forall x, In x l -> P x f.
Proof.
  induction l as [|x l IH]; intro H.
  - exists 0. intros f _ y [].
  - destruct (H x (or_introl eq_refl)) as [N1 H1]. destruct IH as [N2 H2]; [intros y Hy; apply H; now right|].
    exists (Nat.max N1 N2). intros f Hf y [<-|Hy]; [apply H1; lia|apply H2; auto; lia].
Qed.

(** ** Fields and types *)
Lemma option_values_case (A : Type) (o : option A) : (match o with Some _ => true | None => false end) = false <-> o = None.
Proof. destruct o; split; congruence. Qed.
Lemma values_pattern ts b : b = match ts_values ts with Some _ => true | None => false end ->
  (b && negb (ts_pattern ts =?s "")) = false <-> ts_values ts = None \/ ts_pattern ts = "".
Proof.
  intros ->. rewrite Bool.andb_false_iff, option_values_case, Bool.negb_false_iff, seqb_eq. tauto.
Qed.

Lemma field_part f :
  (_ <- need m (ts_type (fd_spec f)) ;;
   (if ts_type (fd_spec f) =?s "Array" then need_param m (ts_items (fd_spec f))
        else if ts_type (fd_spec f) =?s "Map" then _ <- need_param m (ts_keys (fd_spec f)) ;; need_param m (ts_items (fd_spec f))
        else Ok tt)) = Ok tt <->
  defined sch (ts_type (fd_spec f)) /\
  (ts_type (fd_spec f) = "Array" -> defined_or_none sch (ts_items (fd_spec f))) /\
  (ts_type (fd_spec f) = "Map" -> defined_or_none sch (ts_keys (fd_spec f)) /\ defined_or_none sch (ts_items (fd_spec f))).
Proof.
  rewrite rbind_Ok, <- need_defined. set (ts := fd_spec f).
  assert (H : (if ts_type ts =?s "Array" then need_param m (ts_items ts)
     else if ts_type ts =?s "Map" then _ <- need_param m (ts_keys ts);; need_param m (ts_items ts) else Ok tt) = Ok tt <->
     (ts_type ts = "Array" -> defined_or_none sch (ts_items ts)) /\
     (ts_type ts = "Map" -> defined_or_none sch (ts_keys ts) /\ defined_or_none sch (ts_items ts))).
  { destruct (ts_type ts =?s "Array") eqn:E1; [apply seqb_eq in E1; rewrite E1|apply seqb_neq in E1].
    - rewrite need_param_ok. split; [intro H; split; [auto|discriminate]|intros [H _]; auto].
    - destruct (ts_type ts =?s "Map") eqn:E2; [apply seqb_eq in E2; rewrite E2|apply seqb_neq in E2].
      + etransitivity; [apply rbind_Ok|]. split.
        * intros ([] & H1 & H2). apply need_param_ok in H1, H2. split; [discriminate|auto].
        * intros [_ H]. destruct (H eq_refl) as [H1 H2]. exists tt. split; now apply need_param_ok.
      + split; [intros _; split; intro; contradiction|reflexivity]. }
  split.
  - intros (td & H1 & H2). apply H in H2. split; [eauto|exact H2].
  - intros ([td H1] & H2). exists td. split; [exact H1|]. now apply H.
Qed.
Lemma validate_field_eq fuel f : validate_field X m fuel f = Ok tt <->
  (_ <- need m (ts_type (fd_spec f)) ;;
   (if ts_type (fd_spec f) =?s "Array" then need_param m (ts_items (fd_spec f))
        else if ts_type (fd_spec f) =?s "Map" then _ <- need_param m (ts_keys (fd_spec f)) ;; need_param m (ts_items (fd_spec f))
        else Ok tt)) = Ok tt /\
  (fd_default f <> VNil -> fd_required f = false /\ conforms X m fuel (fd_spec f) (fd_default f) = Ok tt) /\
  (ts_values (fd_spec f) = None \/ ts_pattern (fd_spec f) = "").
Proof.
  unfold validate_field. split.
  - intro H. apply rbind_Ok in H. destruct H as (td & H1 & H). apply rbind_Ok in H. destruct H as ([] & H2 & H).
    apply rbind_Ok in H. destruct H as ([] & H3 & H4). split; [apply rbind_Ok; eauto|]. split.
    + intro Hd. destruct (fd_required f); destruct (fd_default f); try congruence; auto.
    + apply (values_pattern _ _ eq_refl). destruct (_ && _); [discriminate|reflexivity].
  - intros (H & H3 & H4). apply rbind_Ok in H. destruct H as (td & H1 & H2).
    apply rbind_Ok. exists td. split; [exact H1|]. apply rbind_Ok. exists tt. split; [exact H2|].
    apply rbind_Ok. exists tt. split.
    + destruct (fd_default f) eqn:E; try reflexivity;
        (destruct H3 as [-> H3]; [discriminate|]; exact H3).
    + apply (values_pattern _ _ eq_refl) in H4. now rewrite H4.
Qed.
Lemma field_sound fuel f : vwf (fd_default f) -> validate_field X m fuel f = Ok tt -> field_ok X sch f.
Proof.
  intros Hw H. apply validate_field_eq in H. destruct H as (H1 & H2 & H3). apply field_part in H1.
  destruct H1 as (H1 & H1a & H1b). repeat (split; [assumption|]). split; [|exact H3].
  intro Hd. destruct (H2 Hd) as [Hr Hc]. split; [exact Hr|]. eapply conforms_ok; eauto.
Qed.
Lemma field_complete f : vwf (fd_default f) -> field_ok X sch f ->
  exists N, forall fuel, N <= fuel -> validate_field X m fuel f = Ok tt.
Proof.
  intros Hw (H1 & H2 & H3 & H4 & H5).
  assert (Hd : fd_default f = VNil \/ fd_default f <> VNil) by (destruct (fd_default f); auto; right; discriminate).
  destruct Hd as [Hd|Hd].
  - exists 0. intros fuel _. apply validate_field_eq. split; [now apply field_part|]. split; [congruence|exact H5].
  - destruct (H4 Hd) as [Hr Ha]. destruct (conforms_ev _ _ Hw Ha) as [N HN].
    exists N. intros fuel Hf. apply validate_field_eq. split; [now apply field_part|]. split; [|exact H5].
    intros _. auto.
Qed.

Lemma string_def_ok td : validate_string_def m td = Ok tt <->
  (ts_values (td_spec td) = None \/ ts_pattern (td_spec td) = "") /\ defined_or_none sch (ts_reference (td_spec td)).
Proof.
  unfold validate_string_def. rewrite <- reference_ok, <- (values_pattern _ _ eq_refl), Bool.andb_comm.
  destruct (_ && _); split; try discriminate; try tauto. intros [H _]. discriminate.
Qed.
Lemma unit_def_ok td : validate_unit_def m td = Ok tt <->
  (exists v, defines sch (ts_value (td_spec td)) v /\ In (ts_type v) number_kinds)
  /\ (exists u, defines sch (ts_unit (td_spec td)) u /\ In (ts_type u) ["String"; "Enum"]).
Proof.
  unfold validate_unit_def. split.
  - intro H. apply rbind_Ok in H. destruct H as (vt & H1 & H). destruct (str_mem (ts_type (td_spec vt)) numeric_types) eqn:E1; [|discriminate].
    cbn [negb] in H. apply rbind_Ok in H. destruct H as (ut & H2 & H).
    destruct (str_mem (ts_type (td_spec ut)) ["String"; "Enum"]) eqn:E2; [|discriminate].
    apply str_mem_In in E1, E2. apply need_ok in H1, H2.
    split; [exists (td_spec vt)|exists (td_spec ut)]; (split; [eexists; eauto|]); auto.
  - intros [(v & (vt & H1 & <-) & Hv) (u & (ut & H2 & <-) & Hu)]. apply rbind_Ok. exists vt. split; [now apply need_ok|].
    change number_kinds with numeric_types in Hv.
    apply str_mem_In in Hv, Hu. rewrite Hv. cbn [negb]. apply rbind_Ok. exists ut. split; [now apply need_ok|]. now rewrite Hu.
Qed.
Lemma array_def_ok td : validate_array_def m td = Ok tt <-> defined sch (ts_items (td_spec td)).
Proof.
  unfold validate_array_def. destruct (_ =?s "Any") eqn:E; [|apply need_unit].
  apply seqb_eq in E. rewrite E. split; [intros _; exact any_defined|reflexivity].
Qed.
Lemma map_def_ok td : validate_map_def m td = Ok tt <->
  ts_items (td_spec td) = "Any" \/ (defined sch (ts_items (td_spec td)) /\ defined sch (ts_keys (td_spec td))).
Proof.
  unfold validate_map_def. destruct (_ =?s "Any") eqn:E; [apply seqb_eq in E; tauto|apply seqb_neq in E].
  assert (H : (if ts_keys (td_spec td) =?s "String" then Ok tt else _ <- need m (ts_keys (td_spec td));; Ok tt) = @Ok pverror _ tt
             <-> defined sch (ts_keys (td_spec td))).
  { destruct (ts_keys (td_spec td) =?s "String") eqn:E1; [|apply need_unit].
    apply seqb_eq in E1. rewrite E1. split; [intros _; exact string_defined|reflexivity]. }
  rewrite <- (need_defined (ts_items _)). split.
  - intro H0. apply rbind_Ok in H0. destruct H0 as (t & H1 & H2). apply H in H2. right. eauto.
  - intros [?|[[t H1] H2]]; [contradiction|]. apply rbind_Ok. exists t. split; [exact H1|]. now apply H.
Qed.

Ltac kind t k := destruct (t =?s k) eqn:?Ek;
  [match goal with E : (t =?s k) = true |- _ => apply seqb_eq in E end
  |match goal with E : (t =?s k) = false |- _ => apply seqb_neq in E end].


Lemma validate_typedef_eq fuel td : validate_typedef X m fuel td = Ok tt <->
  let ts := td_spec td in
  (ts_type ts = "Struct" -> forall f, In f (ts_fields ts) -> validate_field X m fuel f = Ok tt)
  /\ (ts_type ts = "Array" -> validate_array_def m td = Ok tt)
  /\ (ts_type ts = "Map" -> validate_map_def m td = Ok tt)
  /\ (ts_type ts = "UnitValue" -> validate_unit_def m td = Ok tt)
  /\ (ts_type ts = "String" -> validate_string_def m td = Ok tt)
  /\ (ts_type ts = "UUID" -> validate_reference m td = Ok tt).
Proof.
  cbv zeta. unfold validate_typedef, validate_struct_def. set (t := ts_type (td_spec td)) in *.
  pose proof (each_ok (validate_field X m fuel) (ts_fields (td_spec td))) as He.
  kind t "Struct"; [subst t; rewrite Ek; split;
    [intro H; split; [intros _; now apply He|]; repeat split; intro; discriminate|intros (H & _); apply He; auto]|].
  kind t "Array"; [subst t; rewrite Ek0; split; [intro H; repeat split; auto; intro; discriminate|intros (_ & H & _); auto]|].
  kind t "Map"; [subst t; rewrite Ek1; split; [intro H; repeat split; auto; intro; discriminate|intros (_ & _ & H & _); auto]|].
  kind t "UnitValue"; [subst t; rewrite Ek2; split; [intro H; repeat split; auto; intro; discriminate|intros (_ & _ & _ & H & _); auto]|].
  kind t "String"; [subst t; rewrite Ek3; split; [intro H; repeat split; auto; intro; discriminate|intros (_ & _ & _ & _ & H & _); auto]|].
  kind t "UUID"; [subst t; rewrite Ek4; split; [intro H; repeat split; auto; intro; discriminate|intros (_ & _ & _ & _ & _ & H); auto]|].
  split; [intros _; repeat split; intro; contradiction|reflexivity].
Qed.
Lemma typedef_sound fuel td : (forall f, In f (ts_fields (td_spec td)) -> vwf (fd_default f)) ->
  validate_typedef X m fuel td = Ok tt -> typedef_ok X sch td.
Proof.
  intros Hw H. apply validate_typedef_eq in H. cbv zeta in H.
  destruct H as (H1 & H2 & H3 & H4 & H5 & H6). unfold typedef_ok. cbv zeta.
  split; [intros Ht f Hf; eapply field_sound; eauto|].
  split; [intro; apply array_def_ok; auto|]. split; [intro; apply map_def_ok; auto|].
  split; [intro; apply unit_def_ok; auto|]. split; [intro; apply string_def_ok; auto|].
  intro; apply reference_ok; auto.
Qed.
Lemma typedef_complete td : (forall f, In f (ts_fields (td_spec td)) -> vwf (fd_default f)) ->
  typedef_ok X sch td -> exists N, forall fuel, N <= fuel -> validate_typedef X m fuel td = Ok tt.
Proof.
  intros Hw (H1 & H2' & H3' & H4' & H5' & H6'). cbv zeta in *.
  assert (H2 : ts_type (td_spec td) = "Array" -> validate_array_def m td = Ok tt) by (intro; apply array_def_ok; auto).
  assert (H3 : ts_type (td_spec td) = "Map" -> validate_map_def m td = Ok tt) by (intro; apply map_def_ok; auto).
  assert (H4 : ts_type (td_spec td) = "UnitValue" -> validate_unit_def m td = Ok tt) by (intro; apply unit_def_ok; auto).
  assert (H5 : ts_type (td_spec td) = "String" -> validate_string_def m td = Ok tt) by (intro; apply string_def_ok; auto).
  assert (H6 : ts_type (td_spec td) = "UUID" -> validate_reference m td = Ok tt) by (intro; apply reference_ok; auto).
  clear H2' H3' H4' H5' H6'.
  destruct (String.string_dec (ts_type (td_spec td)) "Struct") as [Ht|Ht].
  - destruct (eventually_all (fun f fuel => validate_field X m fuel f = Ok tt) (ts_fields (td_spec td))) as [N HN].
    + intros f Hf. apply field_complete; auto.
    + exists N. intros fuel Hle. apply validate_typedef_eq. cbv zeta. auto 10.
  - exists 0. intros fuel _. apply validate_typedef_eq. cbv zeta. split; [intro; contradiction|auto 10].
Qed.

(** ** Examples *)
Lemma last_field_Some n fs acc ts : last_field n fs acc = Some ts <->
  (exists fs1 fd fs2, fs = fs1 ++ fd :: fs2 /\ fd_name fd = n /\ (forall g, In g fs2 -> fd_name g <> n) /\ fd_spec fd = ts)
  \/ ((forall g, In g fs -> fd_name g <> n) /\ acc = Some ts).
Proof.
  revert acc. induction fs as [|f fs IH]; intro acc; cbn [last_field].
  - split; [intro H; right; split; [intros ? []|exact H]|].
    intros [(fs1 & fd & fs2 & E & _)|[_ H]]; [destruct fs1; discriminate|exact H].
  - rewrite IH. destruct (fd_name f =?s n) eqn:E; [apply seqb_eq in E|apply seqb_neq in E]; split.
    + intros [(fs1 & fd & fs2 & -> & H)|[Hn [= H]]].
      * left. exists (f :: fs1), fd, fs2. auto.
      * left. exists [], f, fs. auto.
    + intros [(fs1 & fd & fs2 & E' & Hn & Hl & Hs)|[Hn _]]; [|exfalso; apply (Hn f); [now left|exact E]].
      destruct fs1 as [|g fs1]; injection E' as <- ->; [right; subst; auto|].
      left. exists fs1, fd, fs2. auto.
    + intros [(fs1 & fd & fs2 & -> & H)|[Hn H]].
      * left. exists (f :: fs1), fd, fs2. auto.
      * right. split; [|exact H]. intros g [<-|Hg]; auto.
    + intros [(fs1 & fd & fs2 & E' & Hn & Hl & Hs)|[Hn H]]; [|right; split; [intros g Hg; apply Hn; now right|exact H]].
      destruct fs1 as [|g fs1]; injection E' as <- ->; [contradiction|].
      left. exists fs1, fd, fs2. auto.
Qed.
Lemma example_spec_iff target ts : example_spec m target = Some ts <-> target_type sch target ts.
Proof.
  unfold example_spec. destruct (find_type m target) as [td|] eqn:E.
  - assert (Hd : defines sch target (td_spec td)) by (apply (find_type_defines sch m Hm); eauto).
    split; [intros [= <-]; now apply tt_type|]. intro H. f_equal.
    destruct H as [n ts' H|t f ts' fs1 fd fs2 H]; [exact (defines_fun sch m Hm _ _ _ Hd H)|exfalso; eapply H; eauto].
  - assert (Hno : forall ts', ~ defines sch target ts').
    { intros ts' H. apply (find_type_defines sch m Hm) in H. destruct H as (td & H & _). congruence. }
    destruct (cut "." target) as [[t f]|] eqn:Ec.
    + apply cut_Some in Ec. destruct Ec as [-> Ht].
      assert (Huniq : forall t' f', t' +++ "." +++ f' = t +++ String "." f -> smem "." t' = false -> t' = t /\ f' = f).
      { intros t' f' E1 H1. assert (E2 : cut "." (t +++ String "." f) = Some (t', f')) by (apply cut_Some; auto).
        assert (E3 : cut "." (t +++ String "." f) = Some (t, f)) by (apply cut_Some; auto).
        split; congruence. }
      split.
      * destruct (t =?s "") eqn:E0; [discriminate|]. apply seqb_neq in E0.
        destruct (find_type m t) as [td|] eqn:E1; [|discriminate].
        destruct (ts_type (td_spec td) =?s "Struct") eqn:E2; [|discriminate]. apply seqb_eq in E2.
        intro H. apply last_field_Some in H. destruct H as [(fs1 & fd & fs2 & Hf & Hn & Hl & <-)|[_ H]]; [|discriminate].
        apply (tt_field sch t f (td_spec td) fs1 fd fs2); auto.
        -- now apply no_char_smem.
        -- apply (find_type_defines sch m Hm). eauto.
      * intro H. remember (t +++ String "." f) as target eqn:Et.
        destruct H as [n ts' H|t' f' ts' fs1 fd fs2 H Hne Hnc Hd Hs Hf Hn Hl]; [exfalso; eapply Hno; eauto|].
        apply no_char_smem in Hnc. destruct (Huniq _ _ eq_refl Hnc) as [-> ->].
        apply seqb_neq in Hne. rewrite Hne. apply (find_type_defines sch m Hm) in Hd. destruct Hd as (td & -> & <-).
        apply seqb_eq in Hs. rewrite Hs. apply last_field_Some. left. exists fs1, fd, fs2. auto.
    + apply cut_None in Ec. split; [discriminate|].
      intro H. destruct H as [n ts' H|t' f' ts' fs1 fd fs2 H Hne Hnc]; [exfalso; eapply Hno; eauto|].
      rewrite smem_app in Ec. simpl in Ec. apply Bool.orb_false_iff in Ec. destruct Ec; discriminate.
Qed.

Lemma small_first_iff n s : small_first n s <-> uncapitalize n = s.
Proof.
  unfold small_first, uncapitalize, lower1, is_ascii7, to_lower_ch, case_pair, upper_letter, lower_letter, ascii7.
  destruct n as [|c r].
  - split; [intros [[_ ->]|(c & r & E & _)]; [reflexivity|discriminate]|intros <-; auto].
  - split.
    + intros [[E _]|(c' & r' & E & H)]; [discriminate|]. injection E as <- <-.
      destruct H as [(l & (Hu & Hl & Hc) & ->)|[(Hu & Ha & ->)|(Ha & ->)]].
      * destruct (nat_of_ascii c <? 128) eqn:E1; [|apply Nat.ltb_ge in E1; lia].
        assert (Hup : is_upper c = true) by (apply is_upper_iff; exact Hu).
        rewrite Hup. cbn [append]. f_equal. rewrite <- Hc. apply ascii_nat_embedding.
      * apply Nat.ltb_lt in Ha. rewrite Ha.
        destruct (is_upper c) eqn:E; [|reflexivity]. apply is_upper_iff in E. contradiction.
      * apply Nat.ltb_nlt in Ha. now rewrite Ha.
    + intros <-. right. exists c, r. split; [reflexivity|].
      destruct (nat_of_ascii c <? 128) eqn:E1; [apply Nat.ltb_lt in E1|apply Nat.ltb_nlt in E1; right; right; auto].
      destruct (is_upper c) eqn:E.
      * left. apply is_upper_iff in E. unfold upper_letter in E.
        eexists. split; [|reflexivity]. rewrite nat_ascii_embedding by lia. lia.
      * right. left. split; [|split; [exact E1|reflexivity]].
        intro H. assert (is_upper c = true) by (apply is_upper_iff; exact H). congruence.
Qed.
Lemma drop_last_app n suf : drop_last (String.length suf) (n +++ suf) = n.
Proof.
  unfold drop_last. rewrite append_length. replace (String.length n + String.length suf - String.length suf) with (String.length n) by lia.
  apply stake_append.
Qed.
Lemma find_action suf target h : has_suffix suf target = true ->
  (find_http m (uncapitalize (drop_last (String.length suf) target)) = Some h <-> names_action sch suf target h).
Proof.
  intro Hs. apply has_suffix_spec in Hs. destruct Hs as [n ->]. rewrite drop_last_app.
  rewrite (proj1 (find_http_exact sch m Hm)). unfold names_action. split.
  - intros [Hi Hn]. split; [exact Hi|]. exists n. split; [reflexivity|]. now apply small_first_iff.
  - intros (Hi & n' & E & Hn). apply append_inj_r in E. subst n'. split; [exact Hi|]. symmetry. now apply small_first_iff.
Qed.

Lemma params_sound fuel params v : vwf v -> validate_params_example X m fuel params v = Ok tt -> params_example X sch params v.
Proof.
  intros Hw H. unfold validate_params_example in H. destruct v as [| | | | | | | | | | | | |l]; try discriminate.
  exists l. split; [reflexivity|]. apply rbind_Ok in H. destruct H as ([] & H1 & H2).
  pose proof (proj1 (each_ok _ _) H1) as H1'. pose proof (proj1 (each_ok _ _) H2) as H2'. clear H1 H2. split.
  - intros p k x Hp Hx Hn. specialize (H1' _ Hx). pose proof (proj1 (each_ok _ _) H1' _ Hp) as H. cbn [fst snd] in H.
    rewrite Hn, seqb_refl in H. apply rbind_Ok in H. destruct H as (td & Ht & Hc). apply need_ok in Ht.
    exists (td_spec td). split; [exists td; auto|]. eapply conforms_ok; eauto.
    inversion Hw as [? _ Hno| |? _ Hf]; subst; [now specialize (Hno l)|].
    rewrite Forall_forall in Hf. exact (Hf _ Hx).
  - intros p Hp Hr. specialize (H2' _ Hp). cbv beta in H2'. rewrite Hr in H2'. cbn [andb] in H2'.
    destruct (str_mem (fd_name (ps_field p)) (map fst l)) eqn:E; [now apply str_mem_In|discriminate].
Qed.
Lemma params_complete params v : vwf v -> params_example X sch params v ->
  exists N, forall fuel, N <= fuel -> validate_params_example X m fuel params v = Ok tt.
Proof.
  intros Hw (l & -> & H1 & H2). unfold validate_params_example.
  destruct (eventually_all (fun kv fuel => each (fun p =>
             if fd_name (ps_field p) =?s fst kv
             then td <- need m (ts_type (fd_spec (ps_field p))) ;; conforms X m fuel (td_spec td) (snd kv)
             else Ok tt) params = Ok tt) l) as [N HN].
  - intros [k x] Hx. cbn [fst snd].
    destruct (eventually_all (fun p fuel => (if fd_name (ps_field p) =?s k
             then td <- need m (ts_type (fd_spec (ps_field p))) ;; conforms X m fuel (td_spec td) x
             else Ok tt) = Ok tt) params) as [N HN].
    + intros p Hp. destruct (fd_name (ps_field p) =?s k) eqn:E; [apply seqb_eq in E|exists 0; auto].
      destruct (H1 p k x Hp Hx E) as (ts & (td & Hd & <-) & Ha).
      assert (Hwx : vwf x).
      { inversion Hw as [? _ Hno| |? _ Hf]; subst; [now specialize (Hno l)|]. rewrite Forall_forall in Hf. exact (Hf _ Hx). }
      destruct (conforms_ev _ _ Hwx Ha) as [N HN]. exists N. intros fuel Hf. apply rbind_Ok.
      exists td. split; [now apply need_ok|auto].
    + exists N. intros fuel Hf. apply each_ok. auto.
  - exists N. intros fuel Hf. apply rbind_Ok. exists tt. split; [apply each_ok; auto|].
    apply each_ok. intros p Hp. destruct (fd_required (ps_field p)) eqn:E; [|reflexivity].
    specialize (H2 p Hp E). apply str_mem_In in H2. now rewrite H2.
Qed.
Lemma example_sound fuel ex : vwf (ex_example ex) -> validate_example X m fuel ex = Ok tt -> example_ok X sch ex.
Proof.
  intros Hw H. unfold validate_example in H. destruct (example_spec m (ex_target ex)) as [ts|] eqn:E.
  - left. exists ts. split; [now apply example_spec_iff|]. eapply conforms_ok; eauto.
  - right. split; [intros [ts Ht]; apply example_spec_iff in Ht; congruence|].
    destruct (has_suffix "Request" (ex_target ex)) eqn:Es.
    + left. destruct (find_http _ _) as [h|] eqn:Eh; [|discriminate].
      change 7 with (String.length "Request") in Eh. apply (find_action _ _ _ Es) in Eh.
      exists h. split; [exact Eh|]. eapply params_sound; eauto.
    + right. split; [intros [n Hn]; rewrite (proj2 (has_suffix_spec _ _)) in Es by eauto; discriminate|].
      destruct (has_suffix "Response" (ex_target ex)) eqn:Es2; [|discriminate].
      destruct (find_http _ _) as [h|] eqn:Eh; [|discriminate].
      change 8 with (String.length "Response") in Eh. apply (find_action _ _ _ Es2) in Eh.
      destruct (ex_example ex) eqn:Ex; try discriminate.
      destruct (h_expected h) as [x|] eqn:Ee; [|discriminate].
      exists h, x. split; [exact Eh|]. split; [exact Ee|]. eapply params_sound; eauto.
Qed.
Lemma example_complete ex : vwf (ex_example ex) -> example_ok X sch ex ->
  exists N, forall fuel, N <= fuel -> validate_example X m fuel ex = Ok tt.
Proof.
  intros Hw [(ts & Ht & Ha)|(Hn & H)]; unfold validate_example.
  - apply example_spec_iff in Ht. rewrite Ht. now apply conforms_ev.
  - destruct (example_spec m (ex_target ex)) as [ts|] eqn:E; [exfalso; apply Hn; exists ts; now apply example_spec_iff|].
    destruct H as [(h & Hh & Hp)|(Hnr & h & x & Hh & He & Hp)].
    + assert (Es : has_suffix "Request" (ex_target ex) = true).
      { apply has_suffix_spec. destruct Hh as (_ & n & Hh & _). eauto. }
      rewrite Es. apply (find_action _ _ _ Es) in Hh. cbn [String.length] in Hh. rewrite Hh.
      now apply params_complete.
    + destruct (has_suffix "Request" (ex_target ex)) eqn:Es; [apply has_suffix_spec in Es; contradiction|].
      assert (Es2 : has_suffix "Response" (ex_target ex) = true).
      { apply has_suffix_spec. destruct Hh as (_ & n & Hh & _). eauto. }
      rewrite Es2. apply (find_action _ _ _ Es2) in Hh. cbn [String.length] in Hh. rewrite Hh.
      destruct (params_complete _ _ Hw Hp) as [N HN]. exists N. intros fuel Hf. specialize (HN fuel Hf).
      destruct Hp as (l & Hl & _). rewrite Hl in *. rewrite He. exact HN.
Qed.

(** ** Http *)
Lemma at_most_one_cons {A} (P : A -> Prop) a l : at_most_one P (a :: l) <-> at_most_one P l /\ (P a -> none P l).
Proof.
  unfold at_most_one, none. split.
  - intro H. split.
    + intros l1 x l2 y l3 E. apply (H (a :: l1) x l2 y l3). now rewrite E.
    + intros Ha b Hb Hp. apply in_split in Hb. destruct Hb as (l1 & l2 & E).
      apply (H [] a l1 b l2); auto. now rewrite E.
  - intros [H1 H2] l1 x l2 y l3 E Hx Hy. destruct l1 as [|z l1]; injection E as -> E.
    + apply (H2 Hx y); [|exact Hy]. rewrite E. apply in_or_app. right. now left.
    + eapply H1; eauto.
Qed.
Lemma none_cons {A} (P : A -> Prop) a l : none P (a :: l) <-> ~ P a /\ none P l.
Proof.
  unfold none. split.
  - intro H. split; [apply H; now left|]. intros b Hb. apply H. now right.
  - intros [H1 H2] b [<-|Hb]; auto.
Qed.
Lemma all_defined_cons p l : all_defined sch (p :: l) <-> defined sch (ts_type (fd_spec (ps_field p))) /\ all_defined sch l.
Proof.
  unfold all_defined. split.
  - intro H. split; [apply H; now left|]. intros b Hb. apply H. now right.
  - intros [H1 H2] b [<-|Hb]; auto.
Qed.
Lemma check_params_ok body (B : paramspec -> Prop) allowed l : (forall p, body p = true <-> B p) -> named l ->
  (check_params m body allowed "" l = Ok tt <->
     all_defined sch l /\ at_most_one B l /\ (allowed = false -> none B l)) /\
  (forall cur, cur <> "" -> (check_params m body allowed cur l = Ok tt <-> all_defined sch l /\ none B l)).
Proof.
  intros HB. induction l as [|p l IH]; intro Hn.
  - split; [|intros cur _]; cbn [check_params]; (split; [|reflexivity]); intros _.
    + split; [intros ? []|]. split; [intros l1 a l2 b l3 E; destruct l1; discriminate|intros _ ? []].
    + split; intros ? [].
  - destruct IH as [IH1 IH2]; [intros q Hq; apply Hn; now right|].
    assert (Hp : fd_name (ps_field p) <> "") by (apply Hn; now left).
    split; [|intros cur Hcur]; cbn [check_params].
    + rewrite all_defined_cons, at_most_one_cons, <- need_defined, none_cons, <- (HB p). split.
      * intro H. apply rbind_Ok in H. destruct H as (td & Ht & H). destruct (body p).
        -- destruct allowed; [|discriminate]. cbn [negb] in H. rewrite seqb_refl in H. cbn [negb] in H.
           apply (IH2 _ Hp) in H. destruct H as [H1 H2]. split; [eauto|]. split.
           ++ split; [|auto]. intros l1 a l2 b l3 E Ha Hb. apply (H2 a); [|exact Ha]. rewrite E. apply in_or_app. right. now left.
           ++ discriminate.
        -- apply IH1 in H. destruct H as (H1 & H2 & H3). split; [eauto|]. split; [split; [exact H2|discriminate]|].
           intro Ha. split; [discriminate|auto].
      * intros (([td Ht] & Hd) & (Hm1 & Hm2) & Ha). apply rbind_Ok. exists td. split; [exact Ht|].
        destruct (body p).
        -- destruct allowed; [|destruct (Ha eq_refl) as [Hx _]; now contradiction Hx].
           rewrite seqb_refl. cbn [negb]. apply (IH2 _ Hp). auto.
        -- apply IH1. split; [exact Hd|]. split; [exact Hm1|]. intro H. now apply Ha.
    + rewrite all_defined_cons, <- need_defined, none_cons, <- (HB p). split.
      * intro H. apply rbind_Ok in H. destruct H as (td & Ht & H). destruct (body p).
        -- destruct allowed; [|discriminate]. apply seqb_neq in Hcur. rewrite Hcur in H. discriminate.
        -- apply (IH2 _ Hcur) in H. split; [|split; [discriminate|apply H]]. split; [eauto|apply H].
      * intros (([td Ht] & Hd) & Hb & Hl). apply rbind_Ok. exists td. split; [exact Ht|].
        destruct (body p); [now contradiction Hb|]. apply (IH2 _ Hcur). auto.
Qed.
Lemma input_body p : input_is_body p = true <-> body_input p.
Proof.
  unfold input_is_body, body_input. rewrite !Bool.andb_true_iff, Bool.negb_true_iff, !seqb_eq. tauto.
Qed.
Lemma output_body p : output_is_body p = true <-> body_output p.
Proof. unfold output_is_body, body_output. apply seqb_eq. Qed.

Lemma http_iff h : named (h_inputs h) -> (forall x, h_expected h = Some x -> named (xp_outputs x)) ->
  (validate_http m h = Ok tt <-> http_ok sch h).
Proof.
  intros Hi Ho. unfold validate_http, http_ok. rewrite <- http_path_iff.
  pose proof (proj1 (check_params_ok input_is_body body_input (str_mem (h_method h) ["POST"; "PUT"; "PATCH"]) _ input_body Hi)) as HI.
  assert (Hmth : str_mem (h_method h) ["POST"; "PUT"; "PATCH"] = false <-> ~ In (h_method h) ["POST"; "PUT"; "PATCH"])
    by apply str_mem_nIn.
  destruct (validate_http_path (h_path h)); cbn [negb]; [|split; [discriminate|intros [H _]; discriminate]].
  assert (HX : match h_expected h with
    | None => Ok tt
    | Some x =>
        _ <- check_params m output_is_body (negb (xp_status x =? 204)%Z && negb (xp_status x =? 304)%Z) "" (xp_outputs x) ;;
        each (fun e => _ <- need m (xc_type e) ;; Ok tt) (h_exceptions h)
    end = Ok tt <-> (forall x, h_expected h = Some x ->
        all_defined sch (xp_outputs x) /\ at_most_one body_output (xp_outputs x)
        /\ (xp_status x = 204%Z \/ xp_status x = 304%Z -> none body_output (xp_outputs x))
        /\ forall e, In e (h_exceptions h) -> defined sch (xc_type e))).
  { destruct (h_expected h) as [x|]; [|split; [discriminate|reflexivity]].
    specialize (Ho x eq_refl).
    pose proof (proj1 (check_params_ok output_is_body body_output (negb (xp_status x =? 204)%Z && negb (xp_status x =? 304)%Z) _ output_body Ho)) as HO.
    assert (Hst : (negb (xp_status x =? 204)%Z && negb (xp_status x =? 304)%Z) = false <-> xp_status x = 204%Z \/ xp_status x = 304%Z).
    { rewrite Bool.andb_false_iff, !Bool.negb_false_iff, !Z.eqb_eq. tauto. }
    split.
    - intros H y [= <-]. apply rbind_Ok in H. destruct H as ([] & H1 & H2). apply HO in H1. destruct H1 as (H1a & H1b & H1c).
      split; [exact H1a|]. split; [exact H1b|]. split; [intro; apply H1c; now apply Hst|].
      intros e He. apply need_unit. exact (proj1 (each_ok _ _) H2 e He).
    - intro H. destruct (H x eq_refl) as (H1 & H2 & H3 & H4). apply rbind_Ok. exists tt. split.
      + apply HO. split; [exact H1|]. split; [exact H2|]. intro; apply H3; now apply Hst.
      + apply each_ok. intros e He. apply need_unit. auto. }
  split.
  - intro H. apply rbind_Ok in H. destruct H as ([] & H1 & H2). apply HI in H1. destruct H1 as (H1a & H1b & H1c).
    split; [reflexivity|]. split; [exact H1a|]. split; [exact H1b|]. split; [intro; apply H1c; now apply Hmth|]. now apply HX.
  - intros (_ & H1 & H2 & H3 & H4). apply rbind_Ok. exists tt. split; [|now apply HX].
    apply HI. split; [exact H1|]. split; [exact H2|]. intro; apply H3; now apply Hmth.
Qed.

Lemma parser_validate_iff : values_wf sch -> params_named sch ->
  ((exists fuel, parser_validate X m fuel = Ok tt) <-> model_ok X sch).
Proof.
  intros [Hwd Hwe] Hn. unfold parser_validate. rewrite schema_of_model. split.
  - intros [fuel H]. apply rbind_Ok in H. destruct H as ([] & H1 & H). apply rbind_Ok in H. destruct H as ([] & H2 & H3).
    split; [|split].
    + intros td Ht. eapply typedef_sound; [intros f Hf; eapply Hwd; eauto|]. exact (proj1 (each_ok _ _) H1 td Ht).
    + intros ex He. eapply example_sound; [now apply Hwe|]. exact (proj1 (each_ok _ _) H2 ex He).
    + intros h Hh. apply http_iff; [apply Hn; exact Hh|apply Hn; exact Hh|]. exact (proj1 (each_ok _ _) H3 h Hh).
  - intros (H1 & H2 & H3).
    destruct (eventually_all (fun td fuel => validate_typedef X m fuel td = Ok tt) (sc_types sch)) as [N1 HN1].
    { intros td Ht. apply typedef_complete; [intros f Hf; eapply Hwd; eauto|auto]. }
    destruct (eventually_all (fun ex fuel => validate_example X m fuel ex = Ok tt) (sc_examples sch)) as [N2 HN2].
    { intros ex He. apply example_complete; auto. }
    exists (Nat.max N1 N2). apply rbind_Ok. exists tt. split; [apply each_ok; apply HN1; lia|].
    apply rbind_Ok. exists tt. split; [apply each_ok; apply HN2; lia|].
    apply each_ok. intros h Hh. apply http_iff; [apply Hn; exact Hh|apply Hn; exact Hh|auto].
Qed.
End W.
