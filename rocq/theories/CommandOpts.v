(** The command line tool: options, shorthands, names. *)
From Verif Require Import GoStr Outcome Value Data DataFacts Schema Scalars Time Model ModelFacts Misc ParserValidate OpenApi OpenApiImport SmithyAst GraphqlImport Scan ScanFacts ParserTerm ReadFacts Gives Parser Command SpecCommand CommandFacts.

(** ** -x options *)
Lemma option_pair_iff o k v : option_pair o = (k, v) <-> option_read o k v.
Proof.
  unfold option_pair, option_read. destruct (cut "=" o) as [[k0 s0]|] eqn:C.
  - apply cut_Some in C as (-> & N). rewrite (split_app _ _ _ N).
    assert (KU : forall k' s', k0 +++ String "=" s0 = k' +++ String "=" s' -> smem "=" k' = false -> k' = k0 /\ s' = s0).
    { intros k' s' E N'. assert (C1 : cut "=" (k0 +++ String "=" s0) = Some (k0, s0)) by (apply cut_Some; auto).
      assert (C2 : cut "=" (k0 +++ String "=" s0) = Some (k', s')) by (apply cut_Some; auto). rewrite C1 in C2. injection C2 as -> ->. auto. }
    assert (HO : smem "=" (k0 +++ String "=" s0) = true) by (rewrite smem_app; cbn [smem]; rewrite Ascii.eqb_refl; apply orb_true_r).
    destruct (cut "=" s0) as [[s1 r1]|] eqn:C1.
    + apply cut_Some in C1 as (-> & N1). rewrite (split_app _ _ _ N1). split.
      * intros [= <- <-]. left. exists s1, r1. auto.
      * intros [(s & r & [(E & _)|E] & Nk & Ns & ->)|(H & _)]; [| |congruence].
        -- apply KU in E as (-> & E); auto. exfalso. rewrite E, smem_app in Ns. cbn [smem] in Ns. rewrite Ascii.eqb_refl, orb_true_r in Ns. discriminate.
        -- apply KU in E as (-> & E); auto. assert (C3 : cut "=" (s1 +++ String "=" r1) = Some (s1, r1)) by (apply cut_Some; auto).
           assert (C4 : cut "=" (s1 +++ String "=" r1) = Some (s, r)) by (apply cut_Some; auto). rewrite C3 in C4. injection C4 as -> ->. reflexivity.
    + apply cut_None in C1. rewrite (split_noc _ _ C1). split.
      * intros [= <- <-]. left. exists s0, "". auto 6.
      * intros [(s & r & [(E & _)|E] & Nk & Ns & ->)|(H & _)]; [| |congruence].
        -- apply KU in E as (-> & ->); auto.
        -- apply KU in E as (-> & E); auto. exfalso. rewrite <- E, smem_app in C1. cbn [smem] in C1. rewrite Ascii.eqb_refl, orb_true_r in C1. discriminate.
  - apply cut_None in C. rewrite (split_noc _ _ C). split; [intros [= <- <-]; right; auto|].
    intros [(s & r & [(E & _)|E] & _)|(_ & -> & ->)]; [| |reflexivity];
      exfalso; rewrite E, smem_app in C; cbn [smem] in C; rewrite Ascii.eqb_refl, orb_true_r in C; discriminate.
Qed.
(** An option with at most one equals sign is read as it says *)
Definition plain_option (o : string) : Prop := forall k s, o = k +++ String "=" s -> smem "=" k = false -> smem "=" s = false.
Lemma plain_read o k v : plain_option o -> option_read o k v <-> option_says o k v.
Proof.
  intros P. unfold option_read, option_says. split.
  - intros [(s & r & [(E & _)|E] & Nk & Ns & ->)|H]; [left; eauto| |auto].
    exfalso. specialize (P _ _ E Nk). rewrite smem_app in P. cbn [smem] in P. rewrite Ascii.eqb_refl, orb_true_r in P. discriminate.
  - intros [(s & E & Nk & ->)|H]; [|auto]. left. exists s, "". split; [auto|]. split; [exact Nk|]. split; [exact (P _ _ E Nk)|reflexivity].
Qed.
Lemma fold_puts opts d : fold_left (fun d kv => let '(k, v) := option_pair kv in d_put d k v) opts d = puts d (map option_pair opts).
Proof. revert d. induction opts as [|o r IH]; intros d; [reflexivity|]. cbn [fold_left map puts]. rewrite IH. destruct (option_pair o). reflexivity. Qed.
Lemma last_split k (l : list string) : (exists a o v b, l = a ++ o :: b /\ option_pair o = (k, v) /\ ~ In k (map fst (map option_pair b)))
  \/ ~ In k (map fst (map option_pair l)).
Proof.
  induction l as [|o l IH]; [right; intros []|]. destruct IH as [(a & o' & v & b & -> & H & N)|N].
  - left. exists (o :: a), o', v, b. auto.
  - destruct (option_pair o) as [k' v'] eqn:E. destruct (k =?s k') eqn:K.
    + apply seqb_eq in K. subst k'. left. exists [], o, v', l. auto.
    + apply seqb_neq in K. right. cbn [map fst In]. rewrite E. cbn [fst]. intros [<- |I]; auto.
Qed.
Lemma no_option k l : ~ In k (map fst (map option_pair l)) <-> forall o v, In o l -> ~ option_read o k v.
Proof.
  split.
  - intros N o v I R. apply option_pair_iff in R. apply N. rewrite map_map. apply in_map_iff. exists o. rewrite R. auto.
  - intros H I. rewrite map_map in I. apply in_map_iff in I as (o & E & I). destruct (option_pair o) as [k' v] eqn:O. cbn in E. subst k'.
    apply (H o v I). now apply option_pair_iff.
Qed.
Definition is_section (v : value) : Prop := v = VNil \/ exists l, v = VMap l /\ NoDup (map fst l).
Lemma section_map v : is_section v -> holds_map_or_nothing (as_data v).
Proof. intros [->|(l & -> & _)]; [left; reflexivity|right; eexists; reflexivity]. Qed.
Lemma section_get v k x : is_section v -> d_get (as_data v) [k] = x
  <-> ((exists l, v = VMap l /\ (In (k, x) l \/ ~ In k (map fst l) /\ x = VNil)) \/ v = VNil /\ x = VNil).
Proof.
  intros [->|(l & -> & N)]; cbn [as_data].
  - cbn. split; [intros <-; auto|]. intros [(l & ? & _)|(_ & ->)]; [discriminate|reflexivity].
  - rewrite get_one. destruct (assoc k l) as [y|] eqn:A.
    + split; [intros <-; left; exists l; split; [reflexivity|]; left; now apply assoc_In|].
      intros [(l' & [= <-] & [I|(I & _)])|(? & _)]; [|exfalso|discriminate].
      * apply (assoc_NoDup _ _ _ N) in I. congruence.
      * apply I. apply assoc_In in A. apply in_map_iff. exists (k, y). auto.
    + apply assoc_None in A. split; [intros <-; left; exists l; auto|].
      intros [(l' & [= <-] & [I|(I & ->)])|(? & _)]; [exfalso|reflexivity|discriminate].
      apply A. apply in_map_iff. exists (k, x). auto.
Qed.
Lemma generator_value conf gen sec force opts k v : sec = generator_section gen -> is_section (d_get conf [sec]) ->
  d_get (generator_conf conf gen force opts) [k] = v <-> option_value option_read (d_get conf [sec]) force opts k v.
Proof.
  intros -> S. unfold generator_conf. rewrite fold_puts. set (d := as_data _). pose proof (section_map _ S) as HM. fold d in HM.
  assert (HM' : holds_map_or_nothing (d_put d "force-overwrite" (VBool force))) by (right; apply put_map, HM).
  unfold option_value. destruct (last_split k opts) as [(a & o & w & b & -> & O & N)|N].
  - rewrite map_app. cbn [map]. rewrite O, puts_last by assumption. pose proof (proj1 (no_option k b) N) as NB. apply option_pair_iff in O.
    split.
    + intros <-. left. exists a, o, b. auto.
    + intros [(a' & o' & b' & E & R & NB')|(NA & _)].
      2:{ exfalso. apply (NA o w); [apply in_app_iff; right; now left|exact O]. }
      clear - E R NB' O NB.
      assert (LU : forall a a' : list string, a ++ o :: b = a' ++ o' :: b' -> o = o').
      { clear a a' E. induction a as [|x a IH]; intros [|x' a'] E; cbn in E; injection E as E1 E2.
        - exact E1.
        - exfalso. apply (NB o' v); [rewrite E2; apply in_app_iff; right; now left|exact R].
        - exfalso. apply (NB' o w); [rewrite <- E2; apply in_app_iff; right; now left|exact O].
        - eauto. }
      rewrite (LU _ _ E) in O. apply option_pair_iff in O, R. congruence.
  - rewrite puts_other by exact N. pose proof (proj1 (no_option k opts) N) as NB.
    assert (D : forall x, d_get (d_put d "force-overwrite" (VBool force)) [k] = x <->
      (k = "force-overwrite" /\ x = VBool force \/ k <> "force-overwrite" /\ d_get d [k] = x)).
    { intros x. destruct (k =?s "force-overwrite") eqn:K.
      - apply seqb_eq in K. subst k. rewrite put_same by exact HM. split; [intros <-; auto|]. intros [(_ & ->)|(? & _)]; congruence.
      - apply seqb_neq in K. rewrite put_other by exact K. split; [auto|]. intros [(? & _)|(_ & ?)]; congruence. }
    rewrite D. unfold d. rewrite (section_get _ _ _ S). split; [auto|].
    intros [(a & o & b & -> & R & _)|(_ & H)]; [|exact H]. exfalso. apply (NB o v); [apply in_app_iff; right; now left|exact R].
Qed.
Lemma options_plain opts section force k v : (forall o, In o opts -> plain_option o) ->
  option_value option_read section force opts k v <-> option_value option_says section force opts k v.
Proof.
  intros P. unfold option_value, last_of. 
  assert (Q : (forall o v', In o opts -> ~ option_read o k v') <-> (forall o v', In o opts -> ~ option_says o k v')).
  { split; intros H o v' I R; apply (H o v' I), (plain_read o k v' (P o I)), R. }
  rewrite Q. split; (intros [(a & o & b & -> & R & N)|H]; [left|right; exact H]).
  - exists a, o, b. split; [reflexivity|]. split; [apply plain_read; [apply P, in_app_iff; right; now left|exact R]|].
    intros o' v' I R'. apply (N o' v' I), plain_read; [apply P, in_app_iff; right; now right|exact R'].
  - exists a, o, b. split; [reflexivity|]. split; [apply plain_read; [apply P, in_app_iff; right; now left|exact R]|].
    intros o' v' I R'. apply (N o' v' I), plain_read; [apply P, in_app_iff; right; now right|exact R'].
Qed.
(** A section that is no object takes no option *)
Lemma puts_other_data h x : puts (DOther x) h = DOther x.
Proof. induction h as [|[k v] h IH]; [reflexivity|]. exact IH. Qed.

(** ** Shorthands *)
Lemma shorthand_java conf gen sec force opts o : d_get conf [generator_section gen] = d_get conf [generator_section sec] -> smem "=" o = false ->
  d_put (generator_conf conf gen force opts) o (VBool true) = generator_conf conf sec force (opts ++ [o]).
Proof.
  intros E N. unfold generator_conf. rewrite E, fold_left_app. cbn [fold_left].
  assert (O : option_pair o = (o, VBool true)) by (unfold option_pair; now rewrite (split_noc _ _ N)). now rewrite O.
Qed.

(** ** Names *)
Lemma import_conf_get name ns service ft base :
  as_string (d_get (import_conf name ns service ft base) ["name"]) = name
  /\ as_string (d_get (import_conf name ns service ft base) ["namespace"]) = ns
  /\ as_string (d_get (import_conf name ns service ft base) ["service"]) = service
  /\ as_string (d_get (import_conf name ns service ft base) ["base"]) = base.
Proof.
  unfold import_conf, put_unless_empty, new_data.
  destruct (ns =?s "") eqn:E1, (service =?s "") eqn:E2, (name =?s "") eqn:E3, (ft =?s "") eqn:E4, (base =?s "") eqn:E5;
    repeat match goal with H : (_ =?s "") = true |- _ => apply seqb_eq in H; subst end; cbn; auto.
Qed.

(** Without the word [w], no directive changes what [g] sees of a schema *)
Section Named.
Variables (X : ext) (E : penv) (toks : list token) (w : string) (g : schema -> string).
Hypothesis (W : no_word w toks)
  (G1 : w = "name" /\ g = sc_name \/ w = "namespace" /\ g = sc_namespace).
Let T (t : token) : Prop := In t toks.
Lemma nm_any {A} (p : prog A) : gives T p (fun _ => True).
Proof. induction p as [a|e| | |k IH|p IH]; simpl; try exact I; [split; intros; apply IH|exact IH]. Qed.
Lemma nm_directive n incl sch c kw v : In (mkTok SYMBOL kw) toks -> g sch = v -> gives T (directive X n incl sch c kw) (fun sch' => g sch' = v).
Proof.
  intros K S. assert (KW : kw <> w) by (intros ->; exact (W K)). unfold directive.
  destruct (kw =?s "name") eqn:K1.
  { apply seqb_eq in K1. subst kw. destruct G1 as [(-> & _)|(_ & ->)]; [congruence|]. eapply gives_bind, gives_mono; [apply nm_any|]; intros ? _. exact S. }
  destruct (kw =?s "namespace") eqn:K2.
  { apply seqb_eq in K2. subst kw. destruct G1 as [(_ & ->)|(-> & _)]; [|congruence]. eapply gives_bind, gives_mono; [apply nm_any|]; intros ? _. exact S. }
  unfold include_into.
  destruct G1 as [(_ & ->)|(_ & ->)]; clear G1; repeat (match goal with
  | |- gives _ (bind _ _) _ => eapply gives_bind, gives_mono; [apply nm_any|]; intros ? _
  | |- gives _ (if ?b then _ else _) _ => destruct b
  | |- gives _ (match ?x with _ => _ end) _ => destruct x
  end; cbv beta zeta); try exact Logic.I; exact S.
Qed.
Lemma nm_read_schema n incl path : gives T (read_schema X E n incl path) (fun sch => g sch = g (empty_schema E path)).
Proof.
  unfold read_schema. apply (gives_loop T (fun s : schema * string => g (fst s) = g (empty_schema E path))); [|reflexivity].
  intros (s & c) Is. cbn [fst] in Is. apply gives_get; [|exact Is]. intros t Ht.
  destruct t as [ty tx]. destruct ty; try exact Logic.I; try exact Is.
  eapply gives_bind, gives_mono; [apply nm_directive; [exact Ht|exact Is]|]. intros s' H. exact H.
Qed.
Lemma nm_read_file d path m : e_files E path = Some toks -> read_file X E d path = Ok m -> g (m_schema m) = g (empty_schema E path).
Proof.
  destruct d as [|d]; [discriminate|]. cbn [read_file]. intros ->. unfold read_tokens.
  destruct (run _ _) as [[sch st]|e| |] eqn:R; try discriminate; [|destruct e; discriminate].
  destruct (new_model sch) as [m'|e| |] eqn:M; try discriminate. injection 1 as <-.
  apply new_model_inv in M. assert (m_schema m' = sch) as -> by tauto.
  eapply (gives_run T _ _ (fun s => g s = g (empty_schema E path))); [|apply nm_read_schema|exact R].
  apply start_all. apply Forall_forall. intros x I. exact I.
Qed.
End Named.
