(** Which GraphQL documents can be read, and what they become. *)
From Verif Require Import GoStr Outcome Value Schema Model SpecModel ModelFacts SpecMisc MiscFacts SpecGen ReadFacts Graphql GraphqlImport SpecGraphql.

Lemma conv_spec n : gql_converts n (convert_type_name n).
Proof.
  unfold convert_type_name. destruct (n =?s "Int") eqn:E1; [apply seqb_eq in E1; subst; constructor|]. destruct (n =?s "Float") eqn:E2; [apply seqb_eq in E2; subst; constructor|].
  destruct (n =?s "Boolean") eqn:E3; [apply seqb_eq in E3; subst; constructor|]. constructor. apply seqb_neq in E1, E2, E3. simpl. intuition congruence.
Qed.
Lemma conv_fun n t : gql_converts n t -> t = convert_type_name n.
Proof.
  intros [| | |k H]; try reflexivity. unfold convert_type_name. destruct (k =?s "Int") eqn:E1; [apply seqb_eq in E1; subst; exfalso; apply H; simpl; tauto|].
  destruct (k =?s "Float") eqn:E2; [apply seqb_eq in E2; subst; exfalso; apply H; simpl; tauto|]. destruct (k =?s "Boolean") eqn:E3; [apply seqb_eq in E3; subst; exfalso; apply H; simpl; tauto|reflexivity].
Qed.
Lemma field_type_iff t r n i : field_type t = Ok (r, n, i) <-> gql_reads_as t r n i.
Proof.
  split.
  - intros H. destruct t as [k|[k|t|[k|t|t]]|[k|[k|t|[k|t|t]]|t]]; simpl in H; try discriminate; injection H as <- <- <-; constructor; apply conv_spec.
  - intros H. destruct H as [k t H|k t H|k t H|k t H|k t H|k t H|t]; simpl; try (rewrite (conv_fun _ _ H)); reflexivity.
Qed.
Lemma field_type_runs t : (exists x, field_type t = Ok x) \/ field_type t = Panic.
Proof. destruct t as [k|[k|t|[k|t|t]]|[k|[k|t|[k|t|t]]|t]]; simpl; eauto. Qed.
Lemma comment_line s : one_line s (comment_value s).
Proof.
  split; [induction s as [|c s IH]; simpl; [reflexivity|rewrite IH; reflexivity]|].
  induction s as [|c s IH]; intros i k H; [destruct i; discriminate H|]. destruct i as [|i]; simpl in *; [injection H as <-; reflexivity|apply IH; exact H].
Qed.
Lemma described d : describes d (comment_value (string_value d)).
Proof. destruct d as [s|]; simpl; [apply comment_line|reflexivity]. Qed.

Definition field_of (f : gfield) (g : fielddef) : Prop :=
  exists t i r k, gql_reads_as (gf_type f) r t i /\ describes (gf_desc f) k /\ g = mkField (gf_name f) k [] r VNil (bare t [] [] i []).
Lemma fields_run fs : (exists l, gql_fields fs = Ok l /\ Forall2 field_of fs l) \/ (gql_fields fs = Panic /\ exists f, In f fs /\ ~ gql_type_ok (gf_type f)).
Proof.
  induction fs as [|f fs IH]; simpl; [left; exists []; auto|]. destruct (field_type_runs (gf_type f)) as [[[[r t] i] E]|E]; rewrite E; cbn [rbind].
  - destruct IH as [(l & -> & F)|[-> (g & I & N)]]; cbn [rbind].
    + left. eexists. split; [reflexivity|]. constructor; [|exact F]. exists t, i, r, (comment_value (string_value (gf_desc f))). split; [apply field_type_iff; exact E|]. split; [apply described|reflexivity].
    + right. split; [reflexivity|]. exists g. auto.
  - right. split; [reflexivity|]. exists f. split; [auto|]. intros (r & n & i & H). apply field_type_iff in H. congruence.
Qed.
Lemma fields_ok_all fs l : Forall2 field_of fs l -> forall f, In f fs -> gql_type_ok (gf_type f).
Proof.
  intros F f I. induction F as [|x y fs l (t & i & r & k & H & _) F IH]; [destruct I|]. destruct I as [<-|I]; [exists r, t, i; exact H|auto].
Qed.

Lemma above_app pre d n : named_above (pre ++ [d]) n <-> named_above pre n \/ exists ops, d = GSchemaDef ops /\ In n ops.
Proof.
  split.
  - intros (ops & I & J). apply in_app_iff in I. destruct I as [I|[I|[]]]; [left; exists ops; auto|right; exists ops; auto].
  - intros [(ops & I & J)|(ops & -> & J)]; exists ops; (split; [apply in_app_iff; simpl; auto|exact J]).
Qed.
Definition ok_from (pre doc : list gdefn) : Prop := forall p d q, doc = p ++ d :: q -> gql_def_ok (pre ++ p) d.
Lemma ok_nil pre : ok_from pre []. Proof. intros [|] d q H; discriminate H. Qed.
Lemma ok_cons pre d r : ok_from pre (d :: r) <-> gql_def_ok pre d /\ ok_from (pre ++ [d]) r.
Proof.
  split.
  - intros H. split; [assert (X := H [] d r eq_refl); rewrite app_nil_r in X; exact X|]. intros p x q E. rewrite <- app_assoc. apply (H (d :: p) x q). rewrite E. reflexivity.
  - intros [A B] p x q E. destruct p as [|y p]; simpl in E; injection E as <- E; [rewrite app_nil_r; exact A|]. assert (X := B p x q E). rewrite <- app_assoc in X. exact X.
Qed.
(** the first definition that cannot be taken up *)
Definition first_bad (pre doc : list gdefn) (P : gdefn -> Prop) : Prop :=
  exists p d q, doc = p ++ d :: q /\ ok_from pre p /\ P d /\ ~ gql_def_ok (pre ++ p) d.
Definition is_object (d : gdefn) : Prop := exists n desc fs, d = GObject n desc fs.
Definition no_object (d : gdefn) : Prop := ~ is_object d.
Lemma bad_here pre d r (P : gdefn -> Prop) : P d -> ~ gql_def_ok pre d -> first_bad pre (d :: r) P.
Proof. intros A B. exists [], d, r. split; [reflexivity|]. split; [apply ok_nil|]. split; [exact A|]. rewrite app_nil_r. exact B. Qed.
Lemma bad_later pre d r (P : gdefn -> Prop) : gql_def_ok pre d -> first_bad (pre ++ [d]) r P -> first_bad pre (d :: r) P.
Proof.
  intros A (p & x & q & -> & O & H & B). exists (d :: p), x, q. split; [reflexivity|]. split; [apply ok_cons; auto|]. split; [exact H|]. rewrite <- app_assoc in B. exact B.
Qed.
Lemma types_run doc : forall ignore pre, (forall n, In n ignore <-> named_above pre n) ->
  (exists l kept, gql_types ignore doc = Ok l /\ ok_from pre doc /\ gql_kept pre doc kept /\ Forall2 gql_becomes kept l)
  \/ (gql_types ignore doc = Panic /\ first_bad pre doc is_object)
  \/ (gql_types ignore doc = Err tt /\ first_bad pre doc no_object).
Proof.
  assert (KEEP : forall ignore pre d, (forall n, In n ignore <-> named_above pre n) -> (forall ops, d <> GSchemaDef ops) -> forall n, In n ignore <-> named_above (pre ++ [d]) n).
  { intros ignore pre d H N n. rewrite (above_app pre d n), <- H. split; [auto|]. intros [X|(ops & -> & _)]; [exact X|exfalso; exact (N ops eq_refl)]. }
  assert (SKIP : forall pre d r ignore ignore', gql_def_ok pre d -> ~ (exists n, gql_makes pre d n) -> gql_types ignore (d :: r) = gql_types ignore' r ->
    ((exists l kept, gql_types ignore' r = Ok l /\ ok_from (pre ++ [d]) r /\ gql_kept (pre ++ [d]) r kept /\ Forall2 gql_becomes kept l)
     \/ (gql_types ignore' r = Panic /\ first_bad (pre ++ [d]) r is_object) \/ (gql_types ignore' r = Err tt /\ first_bad (pre ++ [d]) r no_object)) ->
    (exists l kept, gql_types ignore (d :: r) = Ok l /\ ok_from pre (d :: r) /\ gql_kept pre (d :: r) kept /\ Forall2 gql_becomes kept l)
     \/ (gql_types ignore (d :: r) = Panic /\ first_bad pre (d :: r) is_object) \/ (gql_types ignore (d :: r) = Err tt /\ first_bad pre (d :: r) no_object)).
  { intros pre d r ignore ignore' A M E [(l & kept & H & O & K & F)|[[H B]|[H B]]]; rewrite E, H; [left|right; left|right; right].
    - exists l, kept. split; [reflexivity|]. split; [apply ok_cons; auto|]. split; [apply gk_skip; assumption|exact F].
    - split; [reflexivity|]. apply bad_later; assumption.
    - split; [reflexivity|]. apply bad_later; assumption. }
  assert (TAKE : forall pre d r ignore td, gql_def_ok pre d -> (exists n, gql_makes pre d n) -> gql_becomes d td ->
    gql_types ignore (d :: r) = (l <- gql_types ignore r ;; Ok (td :: l)) ->
    ((exists l kept, gql_types ignore r = Ok l /\ ok_from (pre ++ [d]) r /\ gql_kept (pre ++ [d]) r kept /\ Forall2 gql_becomes kept l)
     \/ (gql_types ignore r = Panic /\ first_bad (pre ++ [d]) r is_object) \/ (gql_types ignore r = Err tt /\ first_bad (pre ++ [d]) r no_object)) ->
    (exists l kept, gql_types ignore (d :: r) = Ok l /\ ok_from pre (d :: r) /\ gql_kept pre (d :: r) kept /\ Forall2 gql_becomes kept l)
     \/ (gql_types ignore (d :: r) = Panic /\ first_bad pre (d :: r) is_object) \/ (gql_types ignore (d :: r) = Err tt /\ first_bad pre (d :: r) no_object)).
  { intros pre d r ignore td A M T E [(l & kept & H & O & K & F)|[[H B]|[H B]]]; rewrite E, H; cbn [rbind]; [left|right; left|right; right].
    - exists (td :: l), (d :: kept). split; [reflexivity|]. split; [apply ok_cons; auto|]. split; [apply gk_take; assumption|constructor; assumption].
    - split; [reflexivity|]. apply bad_later; assumption.
    - split; [reflexivity|]. apply bad_later; assumption. }
  induction doc as [|d r IH]; intros ignore pre IG; [left; exists [], []; split; [reflexivity|]; split; [apply ok_nil|]; split; constructor|].
  destruct d as [n desc fs|ops|n desc vs|n desc ms|n|n|n|k].
  - destruct (str_mem n ignore) eqn:SM.
    + apply str_mem_In, IG in SM. apply (SKIP _ _ _ _ ignore); [left; exact SM|intros (n' & -> & N); contradiction|simpl; apply IG, str_mem_In in SM; rewrite SM; reflexivity|].
      apply IH. apply KEEP; [exact IG|discriminate].
    + assert (NA : ~ named_above pre n). { intros X. apply IG, str_mem_In in X. congruence. }
      destruct (fields_run fs) as [(l & E & F)|[E (f & I & N)]].
      * apply (TAKE _ _ _ _ (mkTD n (comment_value (string_value desc)) [] (bare "Struct" l [] "" []))).
        -- right. apply (fields_ok_all _ _ F).
        -- exists n. split; [reflexivity|exact NA].
        -- constructor; [apply described|]. exact F.
        -- cbn [gql_types]. rewrite SM. unfold gql_struct. rewrite E. reflexivity.
        -- apply IH. apply KEEP; [exact IG|discriminate].
      * right; left. split; [cbn [gql_types]; rewrite SM; unfold gql_struct; rewrite E; reflexivity|]. apply bad_here; [exists n, desc, fs; reflexivity|].
        intros [X|X]; [contradiction|]. exact (N (X f I)).
  - apply (SKIP _ _ _ _ (ops ++ ignore)); [exact Logic.I|intros (n & [])|reflexivity|]. apply IH. intros n. rewrite above_app, in_app_iff, IG. split.
    + intros [X|X]; [right; exists ops; auto|auto].
    + intros [X|(ops' & E & X)]; [auto|injection E as <-; auto].
  - eapply TAKE; [exact Logic.I|exists n; reflexivity| |reflexivity|apply IH; apply KEEP; [exact IG|discriminate]]. constructor; [apply described|].
    clear. induction vs as [|v vs IH]; constructor; [|exact IH]. split; [reflexivity|]. split; [apply described|reflexivity].
  - eapply TAKE; [exact Logic.I|exists n; reflexivity| |reflexivity|apply IH; apply KEEP; [exact IG|discriminate]]. constructor. apply described.
  - apply (SKIP _ _ _ _ ignore); [exact Logic.I|intros (x & [])|reflexivity|]. apply IH. apply KEEP; [exact IG|discriminate].
  - apply (SKIP _ _ _ _ ignore); [exact Logic.I|intros (x & [])|reflexivity|]. apply IH. apply KEEP; [exact IG|discriminate].
  - destruct (str_mem n ["Timestamp"; "UUID"]) eqn:SM.
    + apply (SKIP _ _ _ _ ignore); [apply str_mem_In in SM; simpl in *; intuition congruence|intros (x & [])|simpl; change (str_mem n ["Timestamp"; "UUID"]) with ((n =?s "Timestamp") || ((n =?s "UUID") || false))%bool in SM |- *; rewrite SM; reflexivity|].
      apply IH. apply KEEP; [exact IG|discriminate].
    + right; right. split; [cbn [gql_types]; rewrite SM; reflexivity|]. apply bad_here; [intros (a & b & c & E); discriminate E|].
      intros X. assert (Y : In n ["Timestamp"; "UUID"]) by (simpl in X |- *; intuition). apply str_mem_In in Y. congruence.
  - right; right. split; [reflexivity|]. apply bad_here; [intros (a & b & c & E); discriminate E|intros []].
Qed.
Lemma bad_not_ok pre doc P : first_bad pre doc P -> ~ ok_from pre doc.
Proof. intros (p & d & q & -> & _ & _ & B) O. apply B. apply (O p d q). reflexivity. Qed.
Lemma app_mid {A} (p q p' q' : list A) x y : p ++ x :: q = p' ++ y :: q' ->
  (p = p' /\ x = y /\ q = q') \/ (exists r, p' = p ++ x :: r) \/ (exists r, p = p' ++ y :: r).
Proof.
  revert p'. induction p as [|a p IH]; intros [|b p'] H; simpl in H; injection H as E H; subst.
  - left. auto.
  - right; left. exists p'. reflexivity.
  - right; right. exists p. reflexivity.
  - destruct (IH p' H) as [(-> & -> & ->)|[(r & ->)|(r & ->)]]; [left; auto|right; left; exists r; reflexivity|right; right; exists r; reflexivity].
Qed.
Lemma bad_one pre doc : first_bad pre doc is_object -> first_bad pre doc no_object -> False.
Proof.
  intros (p & d & q & -> & O & A & B) (p' & d' & q' & E & O' & A' & B'). destruct (app_mid _ _ _ _ _ _ E) as [(-> & -> & ->)|[(r & ->)|(r & ->)]].
  - exact (A' A).
  - apply B. apply (O' p d r). reflexivity.
  - apply B'. apply (O p' d' r). reflexivity.
Qed.

(** ** Names *)
Lemma becomes_name pre d td n : gql_becomes d td -> gql_makes pre d n -> td_name td = n.
Proof. intros H M. destruct H; simpl in M; [destruct M as [-> _]; reflexivity|subst; reflexivity|subst; reflexivity]. Qed.
Definition makes_at (pre doc : list gdefn) (n : string) : Prop := exists p d q, doc = p ++ d :: q /\ gql_makes (pre ++ p) d n.
Lemma at_cons pre d r n : makes_at pre (d :: r) n <-> gql_makes pre d n \/ makes_at (pre ++ [d]) r n.
Proof.
  split.
  - intros (p & x & q & E & M). destruct p as [|y p]; simpl in E; injection E as <- E; [left; rewrite app_nil_r in M; exact M|]. right. exists p, x, q. split; [exact E|]. rewrite <- app_assoc. exact M.
  - intros [M|(p & x & q & -> & M)]; [exists [], d, r; rewrite app_nil_r; auto|]. exists (d :: p), x, q. split; [reflexivity|]. rewrite <- app_assoc in M. exact M.
Qed.
Lemma kept_names pre doc kept : gql_kept pre doc kept -> forall l, Forall2 gql_becomes kept l -> forall n, In n (map td_name l) <-> makes_at pre doc n.
Proof.
  intros K. induction K as [pre|pre d r k M K IH|pre d r k M K IH]; intros l F n.
  - inversion F; subst. simpl. split; [intros []|intros (p & x & q & E & _); destruct p; discriminate E].
  - inversion F as [|x td k' l' B F']; subst. destruct M as (n0 & M0). rewrite at_cons. simpl. rewrite (becomes_name _ _ _ _ B M0), (IH _ F' n). split; [intros [<-|X]; auto|].
    intros [M|X]; [left|auto]. rewrite <- (becomes_name _ _ _ _ B M0). exact (becomes_name _ _ _ _ B M).
  - rewrite at_cons, (IH _ F n). split; [auto|]. intros [X|X]; [exfalso; apply M; exists n; exact X|exact X].
Qed.
Definition no_two (pre doc : list gdefn) : Prop :=
  forall p d mid d' q n, doc = p ++ d :: mid ++ d' :: q -> gql_makes (pre ++ p) d n -> gql_makes (pre ++ p ++ d :: mid) d' n -> False.
Lemma two_cons pre d r : no_two pre (d :: r) <-> (forall n, gql_makes pre d n -> ~ makes_at (pre ++ [d]) r n) /\ no_two (pre ++ [d]) r.
Proof.
  split.
  - intros H. split.
    + intros n M (p & x & q & -> & M'). apply (H [] d p x q n); [reflexivity|rewrite app_nil_r; exact M|]. rewrite <- app_assoc in M'. exact M'.
    + intros p x mid y q n -> M M'. apply (H (d :: p) x mid y q n); [reflexivity|rewrite <- app_assoc in M; exact M|]. rewrite <- app_assoc in M'. exact M'.
  - intros [A B] p x mid y q n E M M'. destruct p as [|z p]; simpl in E; injection E as <- E.
    + rewrite app_nil_r in M. apply (A n M). exists mid, y, q. split; [exact E|]. rewrite <- app_assoc. exact M'.
    + apply (B p x mid y q n E); rewrite <- app_assoc; assumption.
Qed.
Lemma kept_nodup pre doc kept : gql_kept pre doc kept -> forall l, Forall2 gql_becomes kept l -> (NoDup (map td_name l) <-> no_two pre doc).
Proof.
  intros K. induction K as [pre|pre d r k M K IH|pre d r k M K IH]; intros l F.
  - inversion F; subst. simpl. split; [intros _ p d mid d' q n E; destruct p; discriminate E|constructor].
  - inversion F as [|x td k' l' B F']; subst. destruct M as (n0 & M0). rewrite two_cons, <- (IH _ F'). simpl. rewrite (becomes_name _ _ _ _ B M0).
    assert (KN := kept_names _ _ _ K _ F'). split.
    + intros N. inversion N; subst. split; [|assumption]. intros n M. rewrite <- (KN n). rewrite <- (becomes_name _ _ _ _ B M), (becomes_name _ _ _ _ B M0). assumption.
    + intros [A N]. constructor; [|exact N]. rewrite (KN n0). exact (A n0 M0).
  - rewrite two_cons, <- (IH _ F). split; [|tauto]. intros N. split; [|exact N]. intros n X. exfalso. apply M. exists n. exact X.
Qed.

(** ** The whole import *)
Lemma id_builtin : ~ In "ID" builtin_names.
Proof. simpl. intuition discriminate. Qed.
Section Import.
Context (read : string -> option string) (parse : string -> option (list gdefn)) (name ns path src : string) (doc : list gdefn).
Hypothesis R : read path = Some src.
Hypothesis P : parse src = Some doc.
Lemma import_doc : gql_import read parse name ns [path] =
  (sch <- gql_schema name ns doc ;; match new_model sch with Ok m => Ok m | Panic => Panic | OutOfFuel => OutOfFuel | Err _ => Err tt end).
Proof. unfold gql_import. rewrite R, P. reflexivity. Qed.
Definition whole (l : list typedef) : schema :=
  mkSchema "" (if name =?s "" then "generatedFromGraphQL" else name) ns "" "" (id_type :: l) [] [] [] "" [].
Lemma whole_free l kept : gql_kept [] doc kept -> Forall2 gql_becomes kept l -> (collision_free (whole l) <-> gql_names_clear doc).
Proof.
  intros K F. assert (KN := kept_names _ _ _ K _ F). assert (KD := kept_nodup _ _ _ K _ F). unfold collision_free, gql_names_clear. cbn [sc_types sc_http whole map]. split.
  - intros (N & B & _). inversion N as [|x y NI ND]; subst. split.
    + intros pre d post n E M. assert (I : In n (map td_name l)) by (apply KN; exists pre, d, post; auto). split; [intros ->; contradiction|].
      apply in_map_iff in I. destruct I as (td & <- & I). apply B. right. exact I.
    + intros pre d mid d' post n E M M'. apply (proj1 KD ND pre d mid d' post n); assumption.
  - intros [A B]. split; [|split; [|constructor]].
    + constructor; [|apply KD; intros p d mid d' q n E M M'; exact (B p d mid d' q n E M M')]. change (td_name id_type) with "ID". rewrite (KN "ID"). intros (p & d & q & E & M). apply (proj1 (A p d q "ID" E M)). reflexivity.
    + intros td [<-|I]; [exact id_builtin|]. assert (J : In (td_name td) (map td_name l)) by (apply in_map; exact I). apply KN in J. destruct J as (p & d & q & E & M). exact (proj2 (A p d q _ E M)).
Qed.
Lemma import_runs :
  (exists m l kept, gql_import read parse name ns [path] = Ok m /\ m_schema m = whole l /\ gql_readable doc /\ gql_kept [] doc kept /\ Forall2 gql_becomes kept l)
  \/ (gql_import read parse name ns [path] = Panic /\ gql_crashes doc)
  \/ (gql_import read parse name ns [path] = Err tt /\ ~ gql_readable doc /\ ~ gql_crashes doc).
Proof.
  assert (CR : gql_crashes doc <-> first_bad [] doc is_object).
  { split.
    - intros (pre & n & desc & fs & post & E & O & B). exists pre, (GObject n desc fs), post. split; [exact E|]. split; [exact O|]. split; [exists n, desc, fs; reflexivity|exact B].
    - intros (p & d & q & E & O & (n & desc & fs & ->) & B). exists p, n, desc, fs, q. auto. }
  rewrite import_doc. unfold gql_schema. destruct (types_run doc [] []) as [(l & kept & -> & O & K & F)|[[-> B]|[-> B]]].
  - intros n. split; [intros []|intros (ops & [] & _)].
  - cbn [rbind]. change (mkSchema _ _ _ _ _ _ _ _ _ _ _) with (whole l). assert (WF := whole_free l kept K F). destruct (new_model_iff (whole l)) as (A & A' & A'').
    destruct (new_model_res (whole l)) as [(m & NM)|(e & NM)]; rewrite NM.
    + left. exists m, l, kept. split; [reflexivity|]. split; [exact (proj1 (new_model_inv _ _ NM))|]. split; [|auto]. split; [exact O|]. apply WF. exact (A'' m NM).
    + right; right. split; [reflexivity|]. split; [intros [_ C]; apply WF in C; destruct (A C) as (m & Q); congruence|]. rewrite CR. intros X. exact (bad_not_ok _ _ _ X O).
  - right; left. split; [reflexivity|]. apply CR. exact B.
  - right; right. split; [reflexivity|]. split; [intros [O _]; exact (bad_not_ok _ _ _ B O)|]. rewrite CR. intros X. exact (bad_one _ _ X B).
Qed.
Lemma crash_unreadable : gql_crashes doc -> ~ gql_readable doc.
Proof. intros (pre & n & desc & fs & post & E & _ & B) [O _]. apply B. exact (O pre _ post E). Qed.
Lemma import_iff : (exists m, gql_import read parse name ns [path] = Ok m) <-> gql_readable doc.
Proof.
  destruct import_runs as [(m & l & k & E & _ & RD & _)|[[E C]|(E & N & _)]]; rewrite E.
  - split; [auto|]. intros _. exists m. reflexivity.
  - split; [intros (m & X); discriminate X|]. intros RD. exfalso. exact (crash_unreadable C RD).
  - split; [intros (m & X); discriminate X|]. intros RD. contradiction.
Qed.
Lemma crash_iff : gql_import read parse name ns [path] = Panic <-> gql_crashes doc.
Proof.
  destruct import_runs as [(m & l & k & E & _ & RD & _)|[[E C]|(E & N & C)]]; rewrite E.
  - split; [discriminate|]. intros C. exfalso. exact (crash_unreadable C RD).
  - split; auto.
  - split; [discriminate|contradiction].
Qed.
Lemma import_becomes m : gql_import read parse name ns [path] = Ok m -> exists kept l, gql_kept [] doc kept /\ Forall2 gql_becomes kept l /\ m_schema m = whole l.
Proof.
  destruct import_runs as [(m' & l & k & E & S & RD & K & F)|[[E C]|(E & N & C)]]; rewrite E; intros H; try discriminate H. injection H as <-. exists k, l. auto.
Qed.
End Import.
