(** The command line tool: which files it reads, what options it hands on. *)
From Verif Require Import GoStr Outcome Value Data DataFacts Schema Model Command SpecCommand.

(** ** Extensions *)
Lemma file_ext_sound p : forall e, file_ext p = e -> e <> "" -> extension e p.
Proof.
  induction p as [|c r IH]; intros e H N; cbn [file_ext] in H; [congruence|].
  destruct (Ascii.eqb c "." && negb (smem "." r) && negb (smem "/" r)) eqn:E.
  - apply andb_true_iff in E as (E & E3). apply andb_true_iff in E as (E1 & E2). apply ceqb_eq in E1. subst c.
    apply negb_true_iff in E2. apply negb_true_iff in E3. exists "", r. auto.
  - destruct (IH e H N) as (b & t & -> & He & H1 & H2). exists (String c b), t. auto.
Qed.
Lemma file_ext_complete b t : smem "." t = false -> smem "/" t = false -> file_ext (b +++ String "." t) = String "." t.
Proof.
  intros H1 H2. induction b as [|c b IH]; cbn [append file_ext].
  - rewrite H1, H2, Ascii.eqb_refl. reflexivity.
  - replace (smem "." (b +++ String "." t)) with true; [rewrite andb_false_r; exact IH|].
    rewrite smem_app. cbn [smem]. rewrite Ascii.eqb_refl. now rewrite orb_true_r.
Qed.
Lemma extension_iff e p : extension e p <-> file_ext p = e /\ e <> "".
Proof.
  split; [|intros (H & N); exact (file_ext_sound p e H N)].
  intros (b & t & -> & -> & H1 & H2). split; [exact (file_ext_complete b t H1 H2)|discriminate].
Qed.
Lemma formats_iff e fs : formats e fs <-> assoc e file_formats = Some fs.
Proof.
  split; [intros []; reflexivity|]. unfold file_formats. cbn [assoc].
  repeat match goal with |- context [e =?s ?x] => let E := fresh "E" in destruct (e =?s x) eqn:E; [apply seqb_eq in E; subst e; intros [= <-]; constructor|] end.
  discriminate.
Qed.
Lemma formats_ne e fs : formats e fs -> e <> "".
Proof. intros []; discriminate. Qed.
Lemma known_iff p : known_ext p = true <-> input_name p.
Proof.
  unfold known_ext, input_name. destruct (assoc (file_ext p) file_formats) as [fs|] eqn:E.
  - apply formats_iff in E. split; [|auto]. intros _. exists (file_ext p), fs. split; [|exact E].
    apply extension_iff. split; [reflexivity|exact (formats_ne _ _ E)].
  - split; [discriminate|]. intros (e & fs & X & F). apply extension_iff in X as (<- & _). apply formats_iff in F. congruence.
Qed.
Lemma known_false p : known_ext p = false <-> ~ input_name p.
Proof. rewrite <- known_iff. destruct (known_ext p); split; intros; congruence. Qed.

(** ** Candidates *)
Lemma kept_fun {A} (P : A -> Prop) f : (forall x, f x = true <-> P x) -> forall l sel, kept P l sel <-> sel = filter f l.
Proof.
  intros H. assert (HN : forall x, f x = false <-> ~ P x) by (intros x; rewrite <- H; destruct (f x); split; congruence).
  induction l as [|x l IH]; intros sel; cbn [filter].
  - split; [now inversion 1|intros ->; constructor].
  - destruct (f x) eqn:E.
    + pose proof (proj1 (H x) E) as Px. split; [inversion 1; subst; [f_equal; now apply IH|contradiction]|].
      intros ->. constructor; [exact Px|now apply IH].
    + pose proof (proj1 (HN x) E) as Px. split; [inversion 1; subst; [contradiction|now apply IH]|].
      intros ->. constructor; [exact Px|now apply IH].
Qed.

Section F.
Context (stat : string -> option bool) (walk : string -> list string)
        (load : string -> result unit model) (recognise : string -> string -> result unit bool).
Notation stands_for := (stands_for stat walk).
Notation candidates := (candidates stat walk).
Notation says := (says load recognise).
Notation reads_as := (reads_as load recognise).
Notation unread := (unread load recognise).
Notation crashes := (crashes load recognise).
Notation selects := (selects load recognise).
Notation expand_paths := (expand_paths stat walk).
Notation valid_file := (valid_file load recognise).
Notation valid_import_type := (valid_import_type load recognise).
Notation choose := (choose load recognise).
Notation import_files := (import_files stat walk load recognise).

Lemma candidates_iff paths : forall l, expand_paths paths = Ok l <-> candidates paths l.
Proof.
  induction paths as [|p r IH]; intros l; cbn [Command.expand_paths].
  { split; [intros [= <-]; constructor|]. now inversion 1. }
  set (here := if known_ext p then Ok [p] else _).
  assert (H : forall x, here = Ok x <-> stands_for p x).
  { intros x. unfold here. destruct (known_ext p) eqn:K.
    - apply known_iff in K. split; [intros [= <-]; now constructor|]. inversion 1; subst; (reflexivity || contradiction).
    - apply known_false in K. destruct (stat p) as [[|]|] eqn:S.
      + split; [intros [= <-]; eapply stands_directory; eauto; now apply (kept_fun _ known_ext known_iff)|].
        inversion 1; subst; [contradiction| |congruence]. f_equal. symmetry. now apply (kept_fun _ known_ext known_iff).
      + split; [intros [= <-]; now apply stands_nothing|]. inversion 1; subst; (reflexivity || contradiction || congruence).
      + split; [discriminate|]. inversion 1; subst; (contradiction || congruence). }
  split.
  - intros E. apply rbind_Ok in E as (x & E1 & E). apply rbind_Ok in E as (y & E2 & E). injection E as <-.
    constructor; [now apply H|now apply IH].
  - inversion 1; subst. apply rbind_Ok. eexists. split; [apply H; eassumption|]. apply rbind_Ok. eexists. split; [apply IH; eassumption|reflexivity].
Qed.
Lemma expand_total paths : expand_paths paths <> Panic /\ expand_paths paths <> OutOfFuel.
Proof.
  induction paths as [|p r IH]; cbn [Command.expand_paths]; [split; discriminate|].
  destruct (known_ext p); [|destruct (stat p) as [[|]|]]; cbn [rbind]; try (split; discriminate);
    destruct (expand_paths r); cbn [rbind]; split; try discriminate; tauto.
Qed.

(** ** The format of a file *)
Lemma suffix_ext e p : extension e p -> has_suffix e p = true.
Proof. intros (b & t & -> & -> & _ & _). apply has_suffix_spec. eauto. Qed.
Lemma suffix_json e fs p : extension e p -> formats e fs -> has_suffix ".json" p = true <-> extension ".json" p.
Proof.
  intros X F. split; [|apply suffix_ext]. intros H. apply has_suffix_spec in H as (r & ->).
  exists r, "json". auto.
Qed.
Lemma suffix_sadl e p : extension e p -> e <> ".json" -> formats e ["sadl"] -> has_suffix ".sadl" p = true.
Proof. intros X N F. inversion F; subst. now apply suffix_ext. Qed.
Lemma says_iff e fs g p a : extension e p -> formats e fs -> In g fs -> says g p a <-> valid_file g p = a.
Proof.
  intros X F I. unfold Command.valid_file, SpecCommand.says.
  assert (XE : forall e', extension e' p <-> e' = e).
  { intros e'. rewrite extension_iff. apply extension_iff in X as (<- & N). split; [intros (<- & _); reflexivity|intros ->; auto]. }
  destruct (g =?s "sadl") eqn:G.
  { apply seqb_eq in G. subst g. unfold sadl_valid.
    destruct (has_suffix ".sadl" p) eqn:S.
    - assert (SE : e = ".sadl"). { apply has_suffix_spec in S as (r & ->). symmetry. apply XE. exists r, "sadl". auto. }
      subst e. split; [|intros <-; right; left; split; [reflexivity|]; split; [|reflexivity]; rewrite XE; discriminate].
      intros [(_ & J & _)|[(_ & _ & ->)|[(? & _)|(? & _)]]]; try congruence. apply XE in J. discriminate.
    - destruct (has_suffix ".json" p) eqn:J.
      + apply (suffix_json e fs p X F) in J. split.
        * intros [(_ & _ & [(m & -> & ->)|[(x & -> & ->)|[(-> & ->)|(-> & ->)]]])|[(_ & ? & _)|[(? & _)|(? & _)]]]; congruence || reflexivity || contradiction.
        * intros <-. left. split; [reflexivity|]. split; [exact J|]. destruct (load p); eauto 8.
      + exfalso. inversion F; subst; cbn [In] in I; repeat destruct I as [I|I]; try discriminate; try contradiction.
        * rewrite (suffix_ext ".sadl" p X) in S. discriminate.
        * rewrite (suffix_ext ".json" p X) in J. discriminate. }
  apply seqb_neq in G. destruct (g =?s "graphql") eqn:Q.
  { apply seqb_eq in Q. subst g. unfold graphql_valid.
    assert (e = ".graphql") as ->. { inversion F; subst; cbn [In] in I; repeat destruct I as [I|I]; try discriminate; try contradiction; reflexivity. }
    rewrite (suffix_ext _ _ X). split; [|intros <-; auto]. intros [(? & _)|[(? & _)|[(_ & ->)|(_ & ? & _)]]]; congruence. }
  apply seqb_neq in Q. split; [intros [(? & _)|[(? & _)|[(? & _)|(_ & _ & ->)]]]; congruence|]. intros <-. auto 8.
Qed.

Lemma first_valid_iff e p all : extension e p -> formats e all -> forall fs pre, all = pre ++ fs ->
  forall f, f <> "" -> first_valid load recognise fs p = Ok f <-> exists l1 l2, fs = l1 ++ f :: l2 /\ says f p (Ok true) /\ forall g, In g l1 -> says g p (Ok false).
Proof.
  intros X F. induction fs as [|g fs IH]; intros pre HA f N; cbn [first_valid].
  { split; [congruence|]. intros ([|? ?] & l2 & E & _); discriminate. }
  assert (SG : forall a, says g p a <-> valid_file g p = a).
  { intros a. apply (says_iff e all); auto. rewrite HA. apply in_app_iff. right. now left. }
  specialize (IH (pre ++ [g])). rewrite <- app_assoc in IH. specialize (IH HA f N).
  split.
  - intros E. apply rbind_Ok in E as (b & E1 & E2). destruct b.
    + injection E2 as <-. exists [], fs. split; [reflexivity|]. split; [now apply SG|]. intros x [].
    + apply IH in E2 as (l1 & l2 & -> & H1 & H2). exists (g :: l1), l2. split; [reflexivity|]. split; [exact H1|].
      intros x [<- |I]; [now apply SG|auto].
  - intros (l1 & l2 & E & H1 & H2). apply rbind_Ok. destruct l1 as [|x l1]; injection E as <- ->.
    + exists true. split; [now apply SG|reflexivity].
    + exists false. split; [apply SG, H2; now left|]. apply IH. exists l1, l2. split; [reflexivity|]. split; [exact H1|]. intros y I. apply H2. now right.
Qed.
Lemma first_valid_none e p all : extension e p -> formats e all -> forall fs pre, all = pre ++ fs ->
  first_valid load recognise fs p = Ok "" <-> forall g, In g fs -> says g p (Ok false).
Proof.
  intros X F. induction fs as [|g fs IH]; intros pre HA; cbn [first_valid].
  { split; [intros _ g []|reflexivity]. }
  assert (SG : forall a, says g p a <-> valid_file g p = a).
  { intros a. apply (says_iff e all); auto. rewrite HA. apply in_app_iff. right. now left. }
  assert (GN : g <> "").
  { assert (I : In g all) by (rewrite HA; apply in_app_iff; right; now left). clear - F I. inversion F; subst; cbn [In] in I; intuition (subst; discriminate). }
  specialize (IH (pre ++ [g])). rewrite <- app_assoc in IH. specialize (IH HA).
  split.
  - intros E. apply rbind_Ok in E as (b & E1 & E2). destruct b; [congruence|].
    intros x [<- |I]; [now apply SG|]. exact (proj1 IH E2 x I).
  - intros H. apply rbind_Ok. exists false. split; [apply SG, H; now left|]. apply IH. intros x I. apply H. now right.
Qed.
Lemma first_valid_panic e p all : extension e p -> formats e all -> forall fs pre, all = pre ++ fs ->
  first_valid load recognise fs p = Panic <-> exists l1 f l2, fs = l1 ++ f :: l2 /\ says f p Panic /\ forall g, In g l1 -> says g p (Ok false).
Proof.
  intros X F. induction fs as [|g fs IH]; intros pre HA; cbn [first_valid].
  { split; [congruence|]. intros ([|? ?] & f & l2 & E & _); discriminate. }
  assert (SG : forall a, says g p a <-> valid_file g p = a).
  { intros a. apply (says_iff e all); auto. rewrite HA. apply in_app_iff. right. now left. }
  specialize (IH (pre ++ [g])). rewrite <- app_assoc in IH. specialize (IH HA).
  split.
  - intros E. destruct (valid_file g p) as [[|]|x| |] eqn:V; cbn [rbind] in E; try discriminate.
    + apply IH in E as (l1 & f & l2 & -> & H1 & H2). exists (g :: l1), f, l2. split; [reflexivity|]. split; [exact H1|].
      intros x [<- |I]; [now apply SG|auto].
    + exists [], g, fs. split; [reflexivity|]. split; [now apply SG|]. intros x [].
  - intros (l1 & f & l2 & E & H1 & H2). destruct l1 as [|x l1]; injection E as <- ->.
    + apply SG in H1. rewrite H1. reflexivity.
    + rewrite (proj1 (SG _) (H2 g (or_introl eq_refl))). cbn [rbind]. apply IH. exists l1, f, l2. split; [reflexivity|]. split; [exact H1|]. intros y I. apply H2. now right.
Qed.
Lemma ext_fun e e' p : extension e p -> extension e' p -> e = e'.
Proof. intros H H'. apply extension_iff in H as (<- & _). apply extension_iff in H' as (<- & _). reflexivity. Qed.
Lemma fmt_fun e l l' : formats e l -> formats e l' -> l = l'.
Proof. intros H H'. apply formats_iff in H, H'. congruence. Qed.

Lemma type_iff p f : f <> "" -> valid_import_type p = Ok f <-> reads_as p f.
Proof.
  intros N. unfold Command.valid_import_type, SpecCommand.reads_as. destruct (assoc (file_ext p) file_formats) as [fs|] eqn:A.
  - apply formats_iff in A. assert (X : extension (file_ext p) p) by (apply extension_iff; split; [reflexivity|exact (formats_ne _ _ A)]).
    rewrite (first_valid_iff _ p fs X A fs [] eq_refl f N). split.
    + intros (l1 & l2 & -> & H). exists (file_ext p), l1, l2. auto.
    + intros (e & l1 & l2 & X' & F & H). rewrite (ext_fun _ _ _ X' X) in F. exists l1, l2. split; [exact (fmt_fun _ _ _ A F)|exact H].
  - split; [discriminate|]. intros (e & l1 & l2 & X' & F & _). apply extension_iff in X' as (<- & _). apply formats_iff in F. congruence.
Qed.
Lemma type_none p : valid_import_type p = Ok "" <-> unread p.
Proof.
  unfold Command.valid_import_type, SpecCommand.unread. destruct (assoc (file_ext p) file_formats) as [fs|] eqn:A.
  - apply formats_iff in A. assert (X : extension (file_ext p) p) by (apply extension_iff; split; [reflexivity|exact (formats_ne _ _ A)]).
    rewrite (first_valid_none _ p fs X A fs [] eq_refl). split.
    + intros H. exists (file_ext p), fs. auto.
    + intros (e & l & X' & F & H). rewrite (ext_fun _ _ _ X' X) in F. now rewrite (fmt_fun _ _ _ A F).
  - split; [discriminate|]. intros (e & l & X' & F & _). apply extension_iff in X' as (<- & _). apply formats_iff in F. congruence.
Qed.
Lemma type_panic p : input_name p -> valid_import_type p = Panic <-> crashes p.
Proof.
  intros (e0 & fs0 & X0 & F0).
  unfold Command.valid_import_type, SpecCommand.crashes. assert (e0 = file_ext p) as -> by (apply extension_iff in X0 as (<- & _); reflexivity).
  pose proof F0 as A. apply formats_iff in A. rewrite A.
  rewrite (first_valid_panic _ p fs0 X0 F0 fs0 [] eq_refl). split.
  - intros (l1 & f & l2 & -> & H). exists (file_ext p), l1, f, l2. auto.
  - intros (e & l1 & f & l2 & X' & F & H). rewrite (ext_fun _ _ _ X' X0) in F. exists l1, f, l2. split; [exact (fmt_fun _ _ _ F0 F)|exact H].
Qed.
Lemma reads_nonempty p f : reads_as p f -> f <> "".
Proof.
  intros (e & l1 & l2 & _ & F & _). inversion F as [E|E|E|E|E]; repeat (destruct l1 as [|? l1]; cbn in *; try discriminate;
    match goal with H : _ :: _ = _ :: _ |- _ => injection H as; subst end; try discriminate).
  all: destruct l1; discriminate.
Qed.

(** ** Choosing *)
Lemma choose_some c l : c <> "" -> forall f sel, choose c l = Ok (f, sel) <-> f = c /\ selects c l sel.
Proof.
  intros N. induction l as [|p l IH]; intros f sel; cbn [Command.choose].
  { split; [intros [= <- <-]; split; [reflexivity|constructor]|]. intros (-> & H). now inversion H. }
  split.
  - intros E. apply rbind_Ok in E as (g & E1 & E). destruct (g =?s "") eqn:G.
    + apply seqb_eq in G. subst g. apply IH in E as (-> & E). split; [reflexivity|]. apply selects_skip; [now apply type_none|exact E].
    + apply seqb_neq in G. assert (CN : (c =?s "") = false) by now apply seqb_neq. rewrite CN in E. cbn [negb andb] in E.
      destruct (g =?s c) eqn:GC; [|discriminate]. apply seqb_eq in GC. subst g. cbn [negb] in E.
      apply rbind_Ok in E as ((c' & ps) & E2 & E). injection E as <- <-. apply IH in E2 as (-> & E2). split; [reflexivity|].
      apply selects_one; [now apply type_iff|exact E2].
  - intros (-> & H). inversion H as [|? ? s R S|? ? s R S]; subst; apply rbind_Ok.
    + exists c. split; [now apply type_iff|]. assert (CN : (c =?s "") = false) by now apply seqb_neq. rewrite CN, seqb_refl. cbn [negb andb].
      apply rbind_Ok. exists (c, s). split; [apply IH; auto|reflexivity].
    + exists "". split; [now apply type_none|]. cbn. apply IH. auto.
Qed.
Lemma choose_none l : forall f sel, choose "" l = Ok (f, sel) <-> (f <> "" /\ sel <> [] /\ selects f l sel) \/ (f = "" /\ sel = [] /\ forall p, In p l -> unread p).
Proof.
  induction l as [|p l IH]; intros f sel; cbn [Command.choose].
  { split; [intros [= <- <-]; right; split; [reflexivity|]; split; [reflexivity|]; intros p []|].
    intros [(N & N' & H)|(-> & -> & _)]; [|reflexivity]. inversion H; subst. congruence. }
  split.
  - intros E. apply rbind_Ok in E as (g & E1 & E). destruct (g =?s "") eqn:G.
    + apply seqb_eq in G. subst g. apply type_none in E1. apply IH in E as [(N & N' & E)|(-> & -> & E)].
      * left. split; [exact N|]. split; [exact N'|]. now apply selects_skip.
      * right. split; [reflexivity|]. split; [reflexivity|]. intros q [<- |I]; auto.
    + apply seqb_neq in G. cbn in E. apply rbind_Ok in E as ((c' & ps) & E2 & E). injection E as <- <-.
      apply (choose_some g l G) in E2 as (-> & E2). left. split; [exact G|]. split; [discriminate|].
      apply selects_one; [now apply type_iff|exact E2].
  - intros [(N & N' & H)|(-> & -> & H)]; apply rbind_Ok.
    + inversion H as [|? ? s R S|? ? s R S]; subst.
      * exists f. split; [now apply type_iff|]. assert (CN : (f =?s "") = false) by now apply seqb_neq. rewrite CN. cbn [negb andb].
        apply rbind_Ok. exists (f, s). split; [apply choose_some; auto|reflexivity].
      * exists "". split; [now apply type_none|]. cbn. apply IH. left. auto.
    + exists "". split; [apply type_none, H; now left|]. cbn. apply IH. right. split; [reflexivity|]. split; [reflexivity|]. intros q I. apply H. now right.
Qed.
Lemma format_cases e l1 f l2 : formats e (l1 ++ f :: l2) -> f = "sadl" \/ str_mem f ["smithy"; "swagger"; "openapi"; "graphql"] = true.
Proof.
  intros F. assert (I : In f (l1 ++ f :: l2)) by (apply in_app_iff; right; now left). revert I. inversion F; cbn [In]; intros I;
    repeat destruct I as [<- |I]; auto; contradiction.
Qed.
Lemma selects_first f l sel : selects f l sel -> forall p, In p sel -> reads_as p f.
Proof. induction 1; intros q I; [destruct I|destruct I as [<- |I]; auto|auto]. Qed.
Lemma call_iff f sel p0 r c : sel = p0 :: r -> (forall p, In p sel -> reads_as p f) -> call_of f sel = Ok c <-> called f sel c.
Proof.
  intros -> H. unfold call_of, called. pose proof (H p0 (or_introl eq_refl)) as (e & l1 & l2 & X & F & _).
  destruct (f =?s "sadl") eqn:S.
  - apply seqb_eq in S. subst f. destruct r as [|p1 r].
    + destruct (has_suffix ".json" p0) eqn:J.
      * apply (suffix_json _ _ _ X F) in J. split; [intros [= <-]; left; split; [reflexivity|]; exists p0; auto|].
        intros [(_ & p & [= <-] & [(_ & ->)|(? & _)])|(? & _)]; congruence || contradiction.
      * assert (NJ : ~ extension ".json" p0) by (intros J'; apply (suffix_json _ _ _ X F) in J'; congruence).
        split; [intros [= <-]; left; split; [reflexivity|]; exists p0; auto|].
        intros [(_ & p & [= <-] & [(? & _)|(_ & ->)])|(? & _)]; congruence || contradiction.
    + split; [discriminate|]. intros [(_ & p & ? & _)|(? & _)]; congruence.
  - apply seqb_neq in S. destruct (format_cases _ _ _ _ F) as [?|M]; [contradiction|]. rewrite M.
    split; [intros [= <-]; auto|]. intros [(? & _)|(_ & ->)]; [contradiction|reflexivity].
Qed.
Lemma import_iff conf paths c : import_files conf paths = Ok c
  <-> exists l f sel, candidates paths l /\ selects f l sel /\ sel <> [] /\ called f sel c.
Proof.
  unfold Command.import_files. split.
  - intros E. apply rbind_Ok in E as (l & E1 & E). apply rbind_Ok in E as ((f & sel) & E2 & E).
    apply candidates_iff in E1. apply choose_none in E2 as [(N & N' & E2)|(-> & -> & _)]; [|discriminate].
    assert (CN : (f =?s "") = false) by now apply seqb_neq. rewrite CN in E. exists l, f, sel.
    destruct sel as [|p0 r]; [congruence|]. split; [exact E1|]. split; [exact E2|]. split; [exact N'|].
    apply (call_iff f (p0 :: r) p0 r c eq_refl); [exact (selects_first _ _ _ E2)|exact E].
  - intros (l & f & sel & C & S & N & K). destruct sel as [|p0 r]; [congruence|].
    assert (FN : f <> "") by (eapply reads_nonempty, selects_first; [exact S|now left]).
    apply rbind_Ok. exists l. split; [now apply candidates_iff|]. apply rbind_Ok. exists (f, p0 :: r).
    split; [apply choose_none; auto|]. assert (CN : (f =?s "") = false) by now apply seqb_neq. rewrite CN.
    apply (call_iff f (p0 :: r) p0 r c eq_refl); [exact (selects_first _ _ _ S)|exact K].
Qed.

(** ** Crashes *)
Lemma kept_known P (l sel : list string) : kept P l sel -> forall x, In x sel -> P x.
Proof. induction 1; intros y I; [destruct I|destruct I as [<- |I]; auto|auto]. Qed.
Lemma candidates_known paths l : candidates paths l -> forall p, In p l -> input_name p.
Proof.
  induction 1 as [|a l args r H C IH]; intros p I; [destruct I|]. apply in_app_iff in I as [I|I]; [|auto].
  inversion H; subst; [destruct I as [<- |[]]; assumption|eapply kept_known; eauto|destruct I].
Qed.
Lemma choose_panic l : (forall p, In p l -> input_name p) -> forall c, choose c l = Panic
  <-> exists a p b, l = a ++ p :: b /\ crashes p /\ (if c =?s "" then (exists f sel, selects f a sel) else exists sel, selects c a sel).
Proof.
  induction l as [|p l IH]; intros K c; cbn [Command.choose].
  { split; [discriminate|]. intros ([|? ?] & ? & ? & ? & _); discriminate. }
  assert (K' : forall q, In q l -> input_name q) by (intros q I; apply K; now right). specialize (IH K').
  pose proof (type_panic p (K p (or_introl eq_refl))) as TP.
  assert (SK : forall f a sel, selects f (p :: a) sel -> (reads_as p f \/ unread p) /\ exists s, selects f a s).
  { intros f a sel H. inversion H; subst; eauto. }
  split.
  - destruct (valid_import_type p) as [g|x| |] eqn:V; cbn [rbind]; try discriminate.
    + destruct (g =?s "") eqn:G.
      * apply seqb_eq in G. subst g. apply type_none in V. intros E. apply IH in E as (a & q & b & -> & Q & S).
        exists (p :: a), q, b. split; [reflexivity|]. split; [exact Q|]. destruct (c =?s "").
        -- destruct S as (f & sel & S). exists f, sel. now apply selects_skip.
        -- destruct S as (sel & S). exists sel. now apply selects_skip.
      * apply seqb_neq in G. apply (type_iff p g G) in V. destruct (negb (c =?s "") && negb (g =?s c)) eqn:B; [discriminate|].
        destruct (choose g l) as [(c' & ps)|x| |] eqn:CH; cbn [rbind]; try discriminate. intros _.
        apply IH in CH as (a & q & b & -> & Q & S). assert (GN : (g =?s "") = false) by now apply seqb_neq. rewrite GN in S. destruct S as (sel & S).
        exists (p :: a), q, b. split; [reflexivity|]. split; [exact Q|]. destruct (c =?s "") eqn:C0.
        -- exists g, (p :: sel). now apply selects_one.
        -- cbn [negb andb] in B. apply negb_false_iff, seqb_eq in B. subst c. exists (p :: sel). now apply selects_one.
    + intros _. exists [], p, l. split; [reflexivity|]. split; [now apply TP|]. destruct (c =?s "").
      * exists "", []. constructor.
      * exists []. constructor.
  - intros (a & q & b & E & Q & S). destruct a as [|p' a]; injection E as <- ->.
    + rewrite (proj2 TP Q). reflexivity.
    + assert (H : exists f, (c =?s "" = false -> f = c) /\ (reads_as p f \/ unread p) /\ exists s, selects f a s).
      { destruct (c =?s ""); [destruct S as (f & sel & S)|destruct S as (sel & S)]; apply SK in S as (S1 & S2); eexists; (split; [|split; [exact S1|exact S2]]); [discriminate|reflexivity]. }
      destruct H as (f & FC & [R|U] & s & S').
      * assert (FN := reads_nonempty _ _ R). apply (type_iff p f FN) in R. rewrite R. cbn [rbind].
        assert (CN : (f =?s "") = false) by now apply seqb_neq. rewrite CN.
        replace (negb (c =?s "") && negb (f =?s c)) with false.
        2:{ destruct (c =?s ""); [reflexivity|]. rewrite (FC eq_refl), seqb_refl. reflexivity. }
        rewrite (proj2 (IH f)); [reflexivity|]. exists a, q, b. split; [reflexivity|]. split; [exact Q|]. rewrite CN. eauto.
      * apply type_none in U. rewrite U. cbn. apply IH. exists a, q, b. split; [reflexivity|]. split; [exact Q|].
        destruct (c =?s "") eqn:C0; [eauto|]. rewrite (FC eq_refl) in S'. eauto.
Qed.
Lemma import_panic conf paths : import_files conf paths = Panic
  <-> exists a p b f sel, candidates paths (a ++ p :: b) /\ crashes p /\ selects f a sel.
Proof.
  unfold Command.import_files. pose proof (expand_total paths) as (T1 & T2).
  destruct (expand_paths paths) as [l|x| |] eqn:E; cbn [rbind]; try congruence.
  - apply candidates_iff in E. pose proof (choose_panic l (candidates_known _ _ E) "") as CP. cbn in CP.
    assert (U : forall l', candidates paths l' -> l' = l) by (intros l' C'; apply candidates_iff in E, C'; congruence).
    split.
    + destruct (choose "" l) as [(f & sel)|x| |] eqn:C; cbn [rbind]; try discriminate.
      * destruct (f =?s "") eqn:F0; [discriminate|]. intros P. exfalso. unfold call_of in P.
        destruct (f =?s "sadl"); [destruct sel as [|? [|? ?]]; discriminate|]. destruct (str_mem _ _); discriminate.
      * intros _. destruct (proj1 CP eq_refl) as (a & p & b & -> & Q & f & sel & S). exists a, p, b, f, sel. auto.
    + intros (a & p & b & f & sel & C & Q & S). apply U in C. subst l. rewrite (proj2 CP); [reflexivity|]. exists a, p, b. eauto 6.
  - split; [discriminate|]. intros (a & p & b & f & sel & C & _). apply candidates_iff in C. congruence.
Qed.
End F.
