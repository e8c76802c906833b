(** Java files with different names go to different places. *)
From Verif Require Import GoStr Outcome Value Data Schema Model Misc Generator Golang Java JavaModel JavaService JavaExport
  SpecMisc SpecPV SpecGen SpecJavaExport MiscFacts PVFacts GenFacts JavaExportFacts.

Lemma comps_join a b : a <> "" -> b <> "" -> (forall c, In c (split "/" b) -> c = "" \/ plain_component c) ->
  comps (path_join [a; b]) = comps a ++ filter nonempty (split "/" b) /\ path_join [a; b] <> "".
Proof.
  intros N N2 H. unfold path_join. cbn [filter]. destruct (a =?s "") eqn:E; [apply seqb_eq in E; congruence|]. cbn [negb].
  destruct (b =?s "") eqn:E2; [apply seqb_eq in E2; congruence|]. cbn [negb join].
  assert (N' : a +++ "/" +++ b <> "") by (destruct a; [congruence|discriminate]).
  destruct (clean_idem _ N') as (_ & C & Ne). split; [|exact Ne]. rewrite C.
  unfold comps at 1. rewrite rooted_app by exact N. change ("/" +++ b) with (String "/" b).
  rewrite split_app_gen, clean_comps_app, clean_plain by exact H. rewrite rev_involutive. reflexivity.
Qed.
Lemma suffix_inj b : forall a a', a +++ b = a' +++ b -> a = a'.
Proof.
  assert (L : forall x y, String.length (x +++ y) = String.length x + String.length y) by (induction x as [|c x IH]; intros y; simpl; [reflexivity|rewrite IH; reflexivity]).
  induction a as [|c a IH]; intros [|c' a'] E; [reflexivity| | |].
  - apply (f_equal String.length) in E. cbn in E. rewrite L in E. lia.
  - apply (f_equal String.length) in E. cbn in E. rewrite L in E. lia.
  - cbn in E. injection E as -> E. rewrite (IH a' E). reflexivity.
Qed.
Lemma filter_plain l : (forall x, In x l -> plain_component x) -> filter nonempty l = l.
Proof.
  induction l as [|a l IH]; intros H; [reflexivity|]. cbn [filter]. rewrite IH by (intros x Hx; apply H; right; exact Hx).
  destruct (H a (or_introl eq_refl)) as [[A _] _]. unfold nonempty. destruct (a =?s "") eqn:E; [apply seqb_eq in E; congruence|]. reflexivity.
Qed.
Lemma class_plain n : no_char "/" n -> plain_component (n +++ ".java") /\ split "/" (n +++ ".java") = [n +++ ".java"].
Proof.
  intros H. assert (Sl : smem "/" (n +++ ".java") = false) by (rewrite smem_app, (proj1 (no_char_smem _ _) H); reflexivity).
  split; [|apply split_noc; exact Sl]. split; [split; [|split; [|apply no_char_smem; exact Sl]]|].
  - destruct n; discriminate.
  - destruct n as [|c [|? ?]]; discriminate.
  - destruct n as [|c [|c' [|? ?]]]; discriminate.
Qed.
Section Places.
Context (outdir source : string) (Hp : path_join [outdir; source] <> "").
Notation base := (path_join [outdir; source]).
Notation path := (java_path outdir source).
Lemma path_comps f l : package_parts (jf_package f) l -> no_char "/" (jf_name f) -> comps (path f) = comps base ++ l ++ [jf_name f +++ ".java"].
Proof.
  intros P N. destruct (class_plain _ N) as [Q S]. assert (Ne : jf_name f +++ ".java" <> "") by (destruct Q as [[Q _] _]; exact Q).
  assert (B : exists d, comps d = comps base ++ l /\ d <> "" /\ path f = path_join [d; jf_name f +++ ".java"]).
  { unfold java_path. destruct P as [[E ->]|(Nl & E & F)].
    - rewrite E. cbn. exists base. rewrite app_nil_r. auto.
    - assert (Np : join "." l <> "") by (intros X; apply join_empty in X; [exact (Nl X)|]; intros c Hc; apply (F c Hc)).
      destruct (jf_package f =?s "") eqn:Z; [apply seqb_eq in Z; congruence|]. exists (path_join [base; package_to_path (jf_package f)]).
      rewrite E, (package_path_join l Nl (fun x Hx => proj2 (F x Hx))).
      assert (SC : split "/" (join "/" l) = l) by (apply split_comps; [apply Forall_forall; intros x Hx; apply (F x Hx)|exact Nl]).
      destruct (comps_join base (join "/" l) Hp) as [C D].
      + intros X. apply join_empty in X; [exact (Nl X)|]. intros c Hc. apply (F c Hc).
      + rewrite SC. intros c Hc. right. apply (F c Hc).
      + rewrite SC, filter_plain in C by (intros c Hc; apply (F c Hc)). auto. }
  destruct B as (d & C & D & ->). destruct (comps_join d (jf_name f +++ ".java") D Ne) as [C' _].
  - rewrite S. intros c [<-|[]]. right. exact Q.
  - rewrite C', C, S, filter_plain, app_assoc by (intros c [<-|[]]; exact Q). reflexivity.
Qed.
Lemma parts_inj p p' l : package_parts p l -> package_parts p' l -> p = p'.
Proof. intros [[-> E]|(N & -> & _)] [[-> E']|(N' & -> & _)]; congruence. Qed.
Lemma path_inj f f' : plain_file f -> plain_file f' -> path f = path f' -> jf_package f = jf_package f' /\ jf_name f = jf_name f'.
Proof.
  intros ((l & P) & N) ((l' & P') & N') E. apply (f_equal comps) in E. rewrite (path_comps f l P N), (path_comps f' l' P' N') in E.
  apply app_inv_head in E. apply app_inj_tail in E as [-> E]. split; [exact (parts_inj _ _ _ P P')|exact (suffix_inj _ _ _ E)].
Qed.
Lemma first_with p : forall fs, In p (map path fs) -> exists a x b, fs = a ++ x :: b /\ path x = p /\ forall y, In y a -> path y <> p.
Proof.
  induction fs as [|f fs IH]; [intros []|]. intros I. destruct (string_dec (path f) p) as [E|NE]; [exists [], f, fs; repeat split; [exact E|intros y []]|].
  destruct I as [E|I]; [contradiction|]. destruct (IH I) as (a & x & b & -> & E & F). exists (f :: a), x, b. repeat split; [exact E|].
  intros y [<-|Y]; [exact NE|exact (F y Y)].
Qed.
Lemma last_with p : forall fs, In p (map path fs) -> exists a x b, fs = a ++ x :: b /\ path x = p /\ forall y, In y b -> path y <> p.
Proof.
  induction fs as [|f fs IH] using rev_ind; [intros []|]. intros I. rewrite map_app in I. cbn [map] in I.
  destruct (string_dec (path f) p) as [E|NE]; [exists fs, f, []; repeat split; [exact E|intros y []]|].
  apply in_app_or in I as [I|[E|[]]]; [|contradiction]. destruct (IH I) as (a & x & b & -> & E & F). exists a, x, (b ++ [f]).
  rewrite <- app_assoc. repeat split; [exact E|]. intros y Y. apply in_app_or in Y as [Y|[<-|[]]]; [exact (F y Y)|exact NE].
Qed.
Lemma all_stored i force fs g : io_stat i = false -> io_open i = true -> g_err g = false -> (forall f, In f fs -> String.length (jf_text f) <= io_room i) ->
  (forall f, In f fs -> plain_file f) -> (force = false -> forall f, In f fs -> g_fs g (path f) = None) ->
  ((forall f, In f fs -> g_fs (store_files force outdir source i fs g) (path f) = Some (jf_text f))
   <-> (forall f f', In f fs -> In f' fs -> jf_package f = jf_package f' -> jf_name f = jf_name f' -> jf_text f = jf_text f')).
Proof.
  intros Hs Ho He Hr Hf Hd. destruct (store_spec outdir source i Hs Ho force fs g He Hr) as (_ & _ & S1 & _ & S2). split.
  - intros A f f' I I' E1 E2. assert (P : path f = path f') by (unfold java_path; rewrite E1, E2; reflexivity).
    pose proof (A f I) as B. rewrite P, (A f' I') in B. congruence.
  - intros A f I. destruct force.
    + destruct (last_with (path f) fs (in_map path fs f I)) as (a & x & b & E & P & F). rewrite <- P.
      assert (J : In x fs) by (rewrite E; apply in_elt). destruct (path_inj x f (Hf x J) (Hf f I) P) as [E1 E2].
      rewrite <- (A x f J I E1 E2). apply (S1 a x b E eq_refl). intros y Y. rewrite P. exact (F y Y).
    + destruct (first_with (path f) fs (in_map path fs f I)) as (a & x & b & E & P & F). rewrite <- P.
      assert (J : In x fs) by (rewrite E; apply in_elt). destruct (path_inj x f (Hf x J) (Hf f I) P) as [E1 E2].
      rewrite <- (A x f J I E1 E2). apply (S2 a x b E eq_refl); [exact (Hd eq_refl x J)|]. intros y Y. rewrite P. exact (F y Y).
Qed.
End Places.
Lemma plain_comps p r d : path_is p r d -> Forall plain_component d -> comps p = d /\ rooted p = r /\ p <> "".
Proof.
  intros [C E] P. assert (S : d <> [] -> split "/" (join "/" d) = d) by (apply split_comps; exact C).
  assert (Q : forall c, In c d -> c = "" \/ plain_component c) by (rewrite Forall_forall in P; intros c Hc; right; exact (P c Hc)).
  assert (R : d <> [] -> rooted (join "/" d) = false /\ join "/" d <> "").
  { destruct d as [|x d]; [congruence|]. intros _. inversion C as [|? ? (Nx & _ & Sx) _]; subst. destruct x as [|a x]; [congruence|].
    assert (J : exists y, join "/" (String a x :: d) = String a y) by (destruct d; cbn; eauto). destruct J as (y & ->).
    split; [|discriminate]. apply no_char_smem in Sx. simpl in Sx. apply orb_false_iff in Sx as [Sx _]. rewrite Ascii.eqb_sym in Sx.
    unfold rooted. cbn [has_prefix]. rewrite Sx. reflexivity. }
  destruct r.
  - subst p. split; [|split; [reflexivity|discriminate]]. unfold comps. change (rooted ("/" +++ join "/" d)) with true.
    change ("/" +++ join "/" d) with (String "/" (join "/" d)). cbn [split]. rewrite Ascii.eqb_refl. cbn [clean_comps]. rewrite seqb_refl. cbn [orb].
    destruct d as [|x d]; [reflexivity|]. rewrite S by discriminate. rewrite clean_plain by exact Q.
    rewrite filter_plain by (rewrite Forall_forall in P; exact P). reflexivity.
  - destruct E as [[-> ->]|[N ->]]; [split; [reflexivity|split; [reflexivity|discriminate]]|]. destruct (R N) as [R1 R2].
    split; [|split; assumption]. unfold comps. rewrite R1, S by exact N. rewrite clean_plain by exact Q.
    rewrite filter_plain by (rewrite Forall_forall in P; exact P). reflexivity.
Qed.
Lemma rooted_join a b : a <> "" -> b <> "" -> rooted (path_join [a; b]) = rooted a /\ exists q, q <> "" /\ path_join [a; b] = clean q.
Proof.
  intros N N2. unfold path_join. cbn [filter]. destruct (a =?s "") eqn:E; [apply seqb_eq in E; congruence|]. cbn [negb].
  destruct (b =?s "") eqn:E2; [apply seqb_eq in E2; congruence|]. cbn [negb join].
  assert (N' : a +++ "/" +++ b <> "") by (destruct a; [congruence|discriminate]).
  destruct (clean_idem _ N') as (R & _). split; [rewrite R; apply rooted_app; exact N|]. exists (a +++ "/" +++ b). split; [exact N'|reflexivity].
Qed.
(** the place of a file: the output directory, the source directory, the package, the class *)
Lemma path_place outdir r d source ss f l : path_is outdir r d -> Forall plain_component d -> path_is source false ss -> Forall plain_component ss -> ss <> [] ->
  package_parts (jf_package f) l -> no_char "/" (jf_name f) ->
  path_is (java_path outdir source f) r (d ++ ss ++ l ++ [jf_name f +++ ".java"]).
Proof.
  intros Po Pd Ps Pss Ns P N. destruct (plain_comps _ _ _ Po Pd) as (C & R & No). destruct (plain_comps _ _ _ Ps Pss) as (_ & _ & Nso).
  assert (Es : split "/" source = ss) by (destruct Ps as [Cs [[E _]|[_ ->]]]; [congruence|apply split_comps; assumption]).
  rewrite Forall_forall in Pss.
  destruct (comps_join outdir source No Nso) as [C1 Nb]; [rewrite Es; intros c Hc; right; exact (Pss c Hc)|].
  rewrite Es, filter_plain, C in C1 by exact Pss. destruct (rooted_join outdir source No Nso) as [R1 _]. rewrite R in R1.
  pose proof (path_comps outdir source Nb f l P N) as C2. rewrite C1, <- app_assoc in C2. rewrite <- C2.
  assert (B : rooted (java_path outdir source f) = r /\ exists q, q <> "" /\ java_path outdir source f = clean q).
  { destruct (class_plain _ N) as [[[Ne _] _] _]. unfold java_path. destruct (jf_package f =?s "") eqn:Z.
    - destruct (rooted_join _ _ Nb Ne) as [R2 Q]. rewrite R2. split; [exact R1|exact Q].
    - assert (Np : package_to_path (jf_package f) <> "" /\ path_join [path_join [outdir; source]; package_to_path (jf_package f)] <> "").
      { destruct P as [[E _]|(Nl & E & F)]; [rewrite E in Z; discriminate|].
        rewrite E, (package_path_join l Nl (fun x Hx => proj2 (F x Hx))).
        assert (X : join "/" l <> "") by (intros X; apply join_empty in X; [exact (Nl X)|]; intros c Hc; apply (F c Hc)).
        split; [exact X|]. apply (comps_join _ _ Nb X). intros c Hc. right.
        rewrite split_comps in Hc; [apply (F c Hc)|apply Forall_forall; intros x Hx; apply (F x Hx)|exact Nl]. }
      destruct Np as [Np Nj]. destruct (rooted_join _ _ Nb Np) as [R2 _]. destruct (rooted_join _ _ Nj Ne) as [R3 Q]. rewrite R3, R2. split; [exact R1|exact Q]. }
  destruct B as [Rf (q & Nq & Eq)]. rewrite <- Rf, Eq. destruct (clean_idem q Nq) as (Rq & Cq & _). rewrite Rq, Cq. apply clean_path, Nq.
Qed.
