(** The Java export as a whole against its specification. *)
From Verif Require Import GoStr Outcome Value Data DataFacts Schema Scalars Model Misc ParserValidate Generator Golang Java JavaModel JavaService JavaExport
  SpecTime SpecModel SpecMisc SpecPV SpecParser SpecTrace SpecGo SpecGen SpecGoServer SpecJava SpecJavaService SpecJavaExport ModelFacts PVFacts MiscFacts GenFacts
  TraceFacts GoModelFacts JavaFacts JavaText JavaFiles JavaGood JavaServiceFacts.
From Coq Require Import Permutation.

(** ** Settings *)
Lemma text_is conf k d : text_setting (d_get conf [k]) d (config_string conf k d).
Proof.
  unfold config_string, d_has, d_string. destruct (d_get conf [k]) eqn:E; cbn [as_string];
  try (apply tx_default; reflexivity); try (apply tx_given; auto; fail); apply tx_other; try discriminate; intros s'; split; discriminate.
Qed.
Lemma flag_is conf k d : flag_setting (d_get conf [k]) d (config_bool conf k d).
Proof.
  unfold config_bool, d_has, d_bool. destruct (d_get conf [k]) eqn:E; cbn [as_bool];
  try (apply fl_default; reflexivity); try (apply fl_on; discriminate).
  all: try (destruct b; [apply fl_on; discriminate|apply fl_off; auto]; fail).
  all: match goal with |- context [?x =?s "false"] => destruct (x =?s "false") eqn:F end; simpl;
    [apply seqb_eq in F; subst; apply fl_off; auto|apply fl_on; try discriminate; intros C; injection C as ->; discriminate].
Qed.
Lemma reversed_default d : reversed d (default_package d).
Proof.
  exists (split "." d). split; [apply split_nonempty|]. split; [intros x I; apply no_char_smem, (split_no_sep "." d x I)|].
  split; [symmetry; apply join_split|]. unfold default_package. rewrite reverse_strings_rev. reflexivity.
Qed.
Lemma no_domain conf : (forall l, d_get conf ["domain"] <> VMap l) -> d_get conf ["-"] = VNil -> d_string conf ["domain"; "-"] = "".
Proof.
  intros D N. unfold d_string. replace (d_get conf ["domain"; "-"]) with VNil; [reflexivity|].
  destruct conf as [| |l|v]; try reflexivity. cbn [d_get] in *. cbn [get_loop].
  destruct (assoc "domain" l) as [v|].
  - destruct v; try reflexivity. destruct (D l0 eq_refl).
  - destruct (assoc "-" l); [symmetry; exact N|reflexivity].
Qed.
Lemma setup_configured host sch conf : (forall l, d_get conf ["domain"] <> VMap l) -> d_get conf ["-"] = VNil ->
  configured (fun k => d_get conf [k]) host sch (java_setup host sch conf).
Proof.
  intros D N. pose proof (no_domain conf D N) as Z. unfold configured, java_setup. rewrite Z. change ("" =?s "") with true. cbv zeta iota.
  cbn [su_domain su_source su_options su_service su_model su_server su_client su_maven jo_name jo_package jo_model_package jo_header jo_lombok jo_immutable jo_instants jo_json jo_service_exception
       sv_package sv_impl sv_client_package].
  set (p := config_string conf "package" ""). assert (P : text_setting (d_get conf ["package"]) "" p) by apply text_is.
  split.
  { destruct (sc_namespace sch =?s "") eqn:E; [left; apply seqb_eq in E; auto|right]. apply seqb_neq in E. split; [exact E|apply reversed_default]. }
  split.
  { destruct (p =?s "") eqn:Ep.
    - apply seqb_eq in Ep. rewrite Ep in P. destruct (sc_namespace sch =?s "") eqn:E.
      + apply seqb_eq in E. apply po_host; [exact P|exact E|apply reversed_default].
      + apply seqb_neq in E. rewrite default_package_involutive. apply po_namespace; [exact P|exact E].
    - apply seqb_neq in Ep. apply po_given; [exact P|exact Ep]. }
  split; [eexists; split; [apply text_is|apply large_first_iff; reflexivity]|].
  split; [apply text_is|]. split; [apply text_is|]. do 9 (split; [apply flag_is|]).
  split; [intros ->; apply text_is|]. split; [intros ->; split; [apply text_is|apply flag_is]|]. intros ->. apply text_is.
Qed.
(** settings that are not looked at *)
Lemma put_pair conf k v a b : a <> k -> b <> k -> d_get (d_put conf k v) [a; b] = d_get conf [a; b].
Proof.
  intros A B. destruct conf as [| |l|w]; try reflexivity.
  - cbn [d_put d_get get_loop assoc]. apply seqb_neq in A, B. rewrite A, B. reflexivity.
  - cbn [d_put d_get get_loop]. rewrite !assoc_set_other by assumption. reflexivity.
Qed.
Lemma setup_unread host sch conf k v : ~ In k read_keys -> java_setup host sch (d_put conf k v) = java_setup host sch conf.
Proof.
  intros I. assert (G : forall x, In x read_keys -> d_get (d_put conf k v) [x] = d_get conf [x]).
  { intros x Ix. apply put_other. intros ->. exact (I Ix). }
  assert (T : forall x d, In x read_keys -> config_string (d_put conf k v) x d = config_string conf x d).
  { intros x d Ix. unfold config_string, d_has, d_string. rewrite (G x Ix). reflexivity. }
  assert (B : forall x d, In x read_keys -> config_bool (d_put conf k v) x d = config_bool conf x d).
  { intros x d Ix. unfold config_bool, d_has, d_bool. rewrite (G x Ix). reflexivity. }
  unfold java_setup, d_string. rewrite put_pair; [|intros <-; apply I; simpl; tauto|intros <-; apply I; simpl; tauto].
  rewrite !T, !B by (simpl; tauto). reflexivity.
Qed.
Lemma setup_domain host sch l s : assoc "domain" l = None -> assoc "-" l = None ->
  java_setup host sch (d_put (DMap l) "domain" (VStr s)) = java_setup host sch (DMap l).
Proof.
  intros D N. assert (G : forall x, x <> "domain" -> d_get (d_put (DMap l) "domain" (VStr s)) [x] = d_get (DMap l) [x]) by (intros x; apply put_other).
  assert (T : forall x d, x <> "domain" -> config_string (d_put (DMap l) "domain" (VStr s)) x d = config_string (DMap l) x d).
  { intros x d Ix. unfold config_string, d_has, d_string. rewrite (G x Ix). reflexivity. }
  assert (B : forall x d, x <> "domain" -> config_bool (d_put (DMap l) "domain" (VStr s)) x d = config_bool (DMap l) x d).
  { intros x d Ix. unfold config_bool, d_has, d_bool. rewrite (G x Ix). reflexivity. }
  unfold java_setup. replace (d_string (d_put (DMap l) "domain" (VStr s)) ["domain"; "-"]) with (d_string (DMap l) ["domain"; "-"]).
  - rewrite !T, !B by discriminate. reflexivity.
  - unfold d_string. cbn [d_put d_get get_loop]. rewrite assoc_set_same, D, N. reflexivity.
Qed.

(** ** The files *)
Section Export.
Context (dec_text : decimal -> string) (sch : schema) (m : model) (Hm : new_model sch = Ok m) (su : jsetup).
Notation o := (su_options su).
Notation sv := (su_service su).
Definition texts (st : jstate) : list jout := map (fun f => (jf_package f, jf_name f, jf_text f)) (js_files st).
Notation mgood := (java_good sch (jo_instants o) (jo_lombok o) (jo_immutable o) (jo_service_exception o) (jo_name o)).
Notation sshown := (server_shown dec_text (jo_instants o) (jo_name o) sch).
Notation cshown := (client_shown (jo_instants o) sch).
Notation mfiles := (java_files java_comment GoServer.go_quote dec_text OpenApi.sprint (jo_lombok o) (jo_immutable o) (jo_json o) (jo_instants o) (jo_service_exception o)
    (jo_header o) (jo_package o) (jo_model_package o) (jo_name o) sch timestamp_text util_text exception_text).
Notation sfiles := (server_files GoServer.go_quote OpenApi.sprint (jo_immutable o) (jo_service_exception o) (sv_impl sv) (jo_header o) (jo_model_package o) (sv_package sv) (jo_name o) sch).
Notation cfiles := (client_files OpenApi.sprint (jo_header o) (jo_model_package o) (sv_client_package sv) sch).
Notation export_good := (export_good dec_text sch su).
Notation export_texts := (export_texts dec_text sch su).
Lemma adds_texts a b fs : adds a b fs -> texts b = texts a ++ fs.
Proof. intros (_ & l & F & M). unfold texts. rewrite F, map_app, M. reflexivity. Qed.
Lemma server_stays f st st' : create_server dec_text m o sv f st = Ok st' -> js_err st' = false -> js_err st = false.
Proof. unfold create_server. destruct (js_err st) eqn:E; [|auto]. intros H. injection H as <-. congruence. Qed.
Lemma client_stays f st st' : create_client dec_text m o sv f st = Ok st' -> js_err st' = false -> js_err st = false.
Proof. unfold create_client. destruct (js_err st) eqn:E; [|auto]. intros H. injection H as <-. congruence. Qed.

Lemma export_steps f ord st pom : java_export dec_text m su f ord = Ok (st, pom) -> js_err st = false ->
  exists s1 s2, (if su_model su then create_model dec_text m o f ord start else Ok start) = Ok s1 /\ js_err s1 = false
    /\ (if su_server su then create_server dec_text m o sv f s1 else Ok s1) = Ok s2 /\ js_err s2 = false
    /\ (if su_client su then create_client dec_text m o sv f s2 else Ok s2) = Ok st
    /\ pom = if su_maven su then create_pom su st else None.
Proof.
  intros H E. unfold java_export in H. cbv zeta in H. apply rbind_Ok in H as (s1 & H1 & H). apply rbind_Ok in H as (s2 & H2 & H).
  apply rbind_Ok in H as (s3 & H3 & H). assert (s3 = st) as -> by congruence.
  assert (Hp : pom = if su_maven su then create_pom su st else None) by congruence. clear H.
  assert (E2 : js_err s2 = false) by (destruct (su_client su); [exact (client_stays _ _ _ H3 E)|congruence]).
  assert (E1 : js_err s1 = false) by (destruct (su_server su); [exact (server_stays _ _ _ H2 E2)|congruence]).
  exists s1, s2. auto 10.
Qed.
Theorem export_spec f ord st pom : (forall l, Permutation (ord l) l) -> java_export dec_text m su f ord = Ok (st, pom) -> js_err st = false ->
  export_texts (texts st) /\ export_good /\ pom = (if su_maven su then create_pom su st else None).
Proof.
  intros Ho H E. destruct (export_steps f ord st pom H E) as (s1 & s2 & H1 & E1 & H2 & E2 & H3 & Hp).
  assert (A1 : (if su_model su then mfiles (texts s1) else texts s1 = []) /\ (su_model su = true -> mgood)).
  { destruct (su_model su).
    - split; [exact (files_text dec_text sch m Hm o f ord Ho s1 H1 E1)|]. intros _. apply (fine_model dec_text sch m Hm o ord Ho f). exists s1. auto.
    - split; [|discriminate]. injection H1 as <-. reflexivity. }
  destruct A1 as [A1 G1].
  assert (A2 : exists ss, texts s2 = texts s1 ++ ss /\ (if su_server su then exists service rs b, sshown service rs /\ ss = sfiles b service rs
      /\ (uses_instant (jo_instants o) sch -> b = true) /\ (su_model su = false -> b = true -> uses_instant (jo_instants o) sch) else ss = [])).
  { destruct (su_server su).
    - destruct (server_spec dec_text sch m Hm o sv f s1 s2 E1 H2 E2) as (service & rs & b & S & A & B). exists (sfiles b service rs).
      split; [exact (adds_texts _ _ _ A)|]. exists service, rs, b. split; [exact S|]. split; [reflexivity|]. split; [intros U; apply B; auto|].
      intros M Hb. apply B in Hb as [Hb|Hb]; [|exact Hb]. rewrite M in H1. injection H1 as <-. discriminate.
    - exists []. injection H2 as <-. split; [symmetry; apply app_nil_r|reflexivity]. }
  destruct A2 as (ss & T2 & A2).
  assert (A3 : exists cs, texts st = texts s2 ++ cs /\ (if su_client su then exists service rs, cshown service rs /\ cs = cfiles service rs else cs = [])).
  { destruct (su_client su).
    - destruct (client_spec dec_text sch m Hm o sv f s2 st E2 H3 E) as (service & cs & S & A). exists (cfiles service cs).
      split; [exact (adds_texts _ _ _ A)|]. exists service, cs. auto.
    - exists []. injection H3 as <-. split; [symmetry; apply app_nil_r|reflexivity]. }
  destruct A3 as (cs & T3 & A3).
  split.
  { exists (texts s1), ss, cs. split; [rewrite T3, T2, app_assoc; reflexivity|]. auto. }
  split; [|exact Hp]. split; [exact G1|]. split.
  - intros Es. rewrite Es in A2. destruct A2 as (service & rs & b & S & _). eauto.
  - intros Ec. rewrite Ec in A3. destruct A3 as (service & rs & S & _). eauto.
Qed.
Theorem export_fine ord : (forall l, Permutation (ord l) l) -> export_good ->
  ev (fun f => exists st, java_export dec_text m su f ord = Ok (st, if su_maven su then create_pom su st else None) /\ js_err st = false).
Proof.
  intros Ho (G1 & G2 & G3).
  assert (V1 : ev (fun f => exists s1, (if su_model su then create_model dec_text m o f ord start else Ok start) = Ok s1 /\ js_err s1 = false)).
  { destruct (su_model su); [exact (model_fine dec_text sch m Hm o ord (G1 eq_refl))|]. exists 0. intros f _. exists start. auto. }
  assert (V2 : ev (fun f => forall s1, js_err s1 = false -> exists s2, (if su_server su then create_server dec_text m o sv f s1 else Ok s1) = Ok s2 /\ js_err s2 = false)).
  { destruct (su_server su); [|exists 0; intros f _ s1 E; exists s1; auto]. destruct (G2 eq_refl) as (service & rs & S). exact (server_fine dec_text sch m Hm o sv service rs S). }
  assert (V3 : ev (fun f => forall s1, js_err s1 = false -> exists s2, (if su_client su then create_client dec_text m o sv f s1 else Ok s1) = Ok s2 /\ js_err s2 = false)).
  { destruct (su_client su); [|exists 0; intros f _ s1 E; exists s1; auto]. destruct (G3 eq_refl) as (service & rs & S). exact (client_fine dec_text sch m Hm o sv service rs S). }
  destruct V1 as [f1 V1], V2 as [f2 V2], V3 as [f3 V3]. exists (f1 + f2 + f3). intros f L.
  destruct (V1 f ltac:(lia)) as (s1 & H1 & E1). destruct (V2 f ltac:(lia) s1 E1) as (s2 & H2 & E2). destruct (V3 f ltac:(lia) s2 E2) as (s3 & H3 & E3).
  exists s3. split; [|exact E3]. unfold java_export. cbv zeta. rewrite H1, rbind_now, H2, rbind_now, H3, rbind_now. reflexivity.
Qed.

(** ** Names *)
Lemma types_names thrown before l fs :
  types_files java_comment GoServer.go_quote dec_text OpenApi.sprint (jo_lombok o) (jo_immutable o) (jo_json o) (jo_instants o) (jo_header o) (jo_model_package o) sch thrown before l fs ->
  exists ns, type_classes l ns /\ map fst fs = map (pair (jo_model_package o)) ns.
Proof.
  induction 1 as [before|before td l f fs W T _ (ns & C & N)|before td l fs Nn W _ (ns & C & N)].
  - exists []. split; [constructor|reflexivity].
  - destruct T as (n & k & _ & L & _ & imports & _ & _ & ->). exists (n :: ns). split; [apply tc_class; assumption|]. simpl. rewrite N. reflexivity.
  - exists ns. split; [apply tc_none; assumption|exact N].
Qed.
Lemma actions_names before l acs fs :
  actions_files java_comment GoServer.go_quote dec_text OpenApi.sprint (jo_lombok o) (jo_immutable o) (jo_json o) (jo_instants o) (jo_header o) (jo_model_package o) sch before l acs fs ->
  exists cs, Forall2 action_classes l cs /\ map fst fs = map (pair (jo_model_package o)) (concat cs).
Proof.
  induction 1 as [before|before h l ac acs f fs A _ (cs & C & N)].
  - exists []. split; [constructor|reflexivity].
  - destruct A as (Mn & x & f1 & g1 & _ & -> & (k1 & _ & i1 & _ & _ & ->) & (k2 & _ & i2 & _ & _ & ->) & _).
    exists ([snd ac +++ "Request"; snd ac +++ "Response"] :: cs). split.
    + constructor; [|exact C]. exists (fst ac), (snd ac). auto.
    + simpl. rewrite N. reflexivity.
Qed.
Lemma model_named ms : mfiles ms -> model_names sch su (map fst ms).
Proof.
  intros (thrown & stamp & helper & ts & is & _ & _ & T & I & H). cbv zeta in H. destruct H as (_ & _ & ->).
  destruct (types_names _ _ _ _ T) as (tn & Ct & Nt). unfold model_names. cbv zeta.
  assert (X : exists ns, map fst is = map (pair (jo_model_package o)) ns
    /\ (jo_name o = "" /\ ns = [] \/ jo_name o <> "" /\ exists cs, Forall2 action_classes (sc_http sch) cs /\ ns = jo_name o :: concat cs)).
  { destruct I as [[E ->]|[E (acs & gs & A & ->)]]; [exists []; auto|]. destruct (actions_names _ _ _ _ A) as (cs & F & N).
    exists (jo_name o :: concat cs). split; [simpl; rewrite N; reflexivity|]. right. eauto. }
  destruct X as (ns & Ni & Ci). exists tn, ns, stamp, helper. split; [exact Ct|]. split; [exact Ci|].
  rewrite !map_app. unfold jout in *. rewrite Nt, Ni, <- app_assoc. unfold fixed_file. destruct stamp, helper, (jo_service_exception o); reflexivity.
Qed.
Theorem export_named fs : export_texts fs -> export_names sch su (map fst fs).
Proof.
  intros (ms & ss & cs & -> & M & S & C). rewrite !map_app.
  assert (X : exists service, (su_server su = true \/ su_client su = true -> sc_name sch <> "" /\ large_first (sc_name sch) service)
    /\ map fst ss = (if su_server su then server_names su service else []) /\ map fst cs = (if su_client su then client_names su service else [])).
  { destruct (su_server su), (su_client su).
    - destruct S as (s & rs & b & (N & L & _) & -> & _), C as (s' & rs' & (_ & L' & _) & ->).
      apply large_first_iff in L, L'. assert (s' = s) as -> by congruence. exists s. split; [intros _; split; [exact N|apply large_first_iff; exact L]|].
      split; [|reflexivity]. unfold server_files, server_names. destruct (sv_impl sv); reflexivity.
    - destruct S as (s & rs & b & (N & L & _) & -> & _). subst cs. exists s. split; [auto|]. split; [|reflexivity]. unfold server_files, server_names. destruct (sv_impl sv); reflexivity.
    - destruct C as (s' & rs' & (N & L' & _) & ->). subst ss. exists s'. split; [auto|]. split; reflexivity.
    - subst ss cs. exists "". split; [intros [D|D]; discriminate|]. split; reflexivity. }
  destruct X as (service & L & Xs & Xc). unfold jout in *. rewrite Xs, Xc. exists (map fst ms), service. split.
  { destruct (su_model su); [exact (model_named ms M)|subst ms; reflexivity]. }
  split; [exact L|reflexivity].
Qed.
End Export.

(** ** The files on disk *)
Section Disk.
Context (outdir source : string) (i : io) (Hs : io_stat i = false) (Ho : io_open i = true).
Notation at_ := (java_path outdir source).
Lemma store_one force f g : g_err g = false -> String.length (jf_text f) <= io_room i ->
  let g' := write_guarded force (at_ f) (jf_text f) i g in
  g_err g' = false /\ forall p, g_fs g' p = if string_dec p (at_ f) then (if force then Some (jf_text f) else match g_fs g p with Some c => Some c | None => Some (jf_text f) end) else g_fs g p.
Proof.
  intros E R. unfold write_guarded, write_file. rewrite E, Hs, Ho. cbv zeta.
  assert (Sh : (io_room i <? String.length (jf_text f)) = false) by (apply Nat.ltb_ge; exact R).
  assert (W : forall p, set_file (at_ f) (stake (io_room i) (jf_text f)) (g_fs g) p = if string_dec p (at_ f) then Some (jf_text f) else g_fs g p).
  { intros p. unfold set_file. rewrite stake_all by exact R. destruct (string_dec p (at_ f)) as [->|N]; [rewrite seqb_refl; reflexivity|]. apply seqb_neq in N. rewrite N. reflexivity. }
  rewrite Sh. destruct force; cbn [negb andb orb].
  - cbn. split; [reflexivity|exact W].
  - destruct (g_fs g (at_ f)) as [c|] eqn:G; cbn.
    + split; [exact E|]. intros p. destruct (string_dec p (at_ f)) as [->|]; [rewrite G|]; reflexivity.
    + split; [reflexivity|]. intros p. rewrite W. destruct (string_dec p (at_ f)) as [->|]; [rewrite G|]; reflexivity.
Qed.
Theorem store_spec force : forall fs g, g_err g = false -> (forall f, In f fs -> String.length (jf_text f) <= io_room i) ->
  let g' := store_files force outdir source i fs g in
  g_err g' = false
  /\ (forall p, (forall f, In f fs -> p <> at_ f) -> g_fs g' p = g_fs g p)
  /\ (forall a f b, fs = a ++ f :: b -> force = true -> (forall x, In x b -> at_ x <> at_ f) -> g_fs g' (at_ f) = Some (jf_text f))
  /\ (forall p c, force = false -> g_fs g p = Some c -> g_fs g' p = Some c)
  /\ (forall a f b, fs = a ++ f :: b -> force = false -> g_fs g (at_ f) = None -> (forall x, In x a -> at_ x <> at_ f) -> g_fs g' (at_ f) = Some (jf_text f)).
Proof.
  induction fs as [|h fs IH]; intros g E R; cbn [store_files fold_left]; cbv zeta.
  - split; [exact E|]. split; [reflexivity|]. split; [intros [|? ?] ? ? D; discriminate|]. split; [auto|]. intros [|? ?] ? ? D; discriminate.
  - destruct (store_one force h g E (R h (or_introl eq_refl))) as (E1 & W). cbv zeta in E1, W.
    set (g1 := write_guarded force (at_ h) (jf_text h) i g) in *.
    destruct (IH g1 E1 (fun f I => R f (or_intror I))) as (K1 & K2 & K3 & K4 & K5). fold (store_files force outdir source i fs g1).
    split; [exact K1|]. split.
    { intros p N. rewrite K2 by (intros f I; apply N; right; exact I). rewrite W. destruct (string_dec p (at_ h)) as [->|]; [destruct (N h (or_introl eq_refl) eq_refl)|reflexivity]. }
    split.
    { intros a f b Eq F N. destruct a as [|x a]; injection Eq as -> ->; [|exact (K3 a f b eq_refl F N)].
      rewrite K2 by (intros x I D; exact (N x I (eq_sym D))). rewrite W, F. destruct (string_dec (at_ f) (at_ f)) as [_|D]; [reflexivity|destruct (D eq_refl)]. }
    split.
    { intros p c F G. apply (K4 p c F). rewrite W, F, G. destruct (string_dec p (at_ h)); reflexivity. }
    intros a f b Eq F G N. destruct a as [|x a]; injection Eq as -> ->.
    + apply (K4 _ _ F). rewrite W, F, G. destruct (string_dec (at_ f) (at_ f)) as [_|D]; [reflexivity|destruct (D eq_refl)].
    + apply (K5 a f b eq_refl F); [|intros y I; apply N; right; exact I]. rewrite W.
      destruct (string_dec (at_ f) (at_ x)) as [D|_]; [destruct (N x (or_introl eq_refl) (eq_sym D))|exact G].
Qed.
End Disk.

(** ** pom.xml *)
Lemma pom_spec su st : js_err st = false -> exists t, create_pom su st = Some t /\ pom_for (su_domain su) (jo_name (su_options su)) (jo_lombok (su_options su)) t.
Proof.
  intros E. unfold create_pom. rewrite E. eexists. split; [reflexivity|].
  generalize (su_domain su) as dm, (jo_name (su_options su)) as n. intros dm n.
  remember (jersey_depends +++ (if jo_lombok (su_options su) then lombok_depends else "")) as c eqn:Hc.
  unfold pom_text. 
  match goal with |- pom_for _ _ _ (join nl [?a1;?a2;?a3;?a4;?a5;_;_;?b1;?b2;?b3;?b4;?b5;_;_;_;?d1;?d2;?d3;?d4;?d5;?d6;?d7;?d8;?d9;?d10;?d11;?d12;?d13;?d14;?d15;?d16;?d17;?d18;?d19;?d20;?d21;?d22;?d23;?d24;?d25;?d26;?d27;?d28;?d29;?d30;?d31;?d32;?d33;?d34;?d35;?d36;?d37;?d38]) =>
    exists (a1 +++ nl +++ a2 +++ nl +++ a3 +++ nl +++ a4 +++ nl +++ a5 +++ nl +++ "  "), (nl +++ join nl [b1;b2;b3;b4;b5]), c,
       (nl +++ join nl [d1;d2;d3;d4;d5;d6;d7;d8;d9;d10;d11;d12;d13;d14;d15;d16;d17;d18;d19;d20;d21;d22;d23;d24;d25;d26;d27;d28;d29;d30;d31;d32;d33;d34;d35;d36;d37;d38])
  end.
  split; [change newline with nl; cbn [join]; rewrite !append_assoc; reflexivity|].
  split; [intros H; apply H; vm_compute; reflexivity|]. split; [intros H; apply H; vm_compute; reflexivity|].
  split; [subst c; destruct (jo_lombok _); repeat (constructor; [vm_compute; discriminate|]); constructor|].
  split.
  { subst c. destruct (jo_lombok _).
    - split; [reflexivity|intros _; vm_compute; discriminate].
    - split; [intros H; exfalso; apply H; vm_compute; reflexivity|discriminate]. }
  split; vm_compute; discriminate.
Qed.
