(** Proofs about the Go export as a whole. *)
From Verif Require Import GoStr Outcome Value Data DataFacts Schema Scalars Time Model Misc MiscFacts Generator Golang GoModel GoServer GoClient GoExport
  SpecTime SpecModel SpecMisc SpecPV SpecTrace SpecGo SpecGen SpecGoServer SpecGoClient SpecJavaExport SpecGoExport
  ModelFacts PVFacts TraceFacts GenFacts GoModelFacts GoText GoServerFacts GoClientFacts JavaExportFacts JavaGood.

(** ** Settings *)
Lemma go_setup_configured sch conf : go_configured (fun k => d_get conf [k]) sch (go_setup sch conf).
Proof.
  unfold go_configured, go_setup. cbn [gs_name gs_package gs_model gs_server gs_client gs_runtime].
  set (p := config_string conf "package" ""). assert (P : text_setting (d_get conf ["package"]) "" p) by apply text_is.
  split; [eexists; split; [apply text_is|apply large_first_iff; reflexivity]|]. split; [|repeat (split; [apply flag_is|]); apply flag_is].
  destruct (p =?s "") eqn:Ep.
  - apply seqb_eq in Ep. rewrite Ep in P. destruct (sc_namespace sch =?s "") eqn:E.
    + apply seqb_eq in E. apply gp_main; assumption.
    + apply seqb_neq in E. apply gp_namespace; assumption.
  - apply seqb_neq in Ep. apply gp_given; assumption.
Qed.
Lemma go_setup_unread sch conf k v : ~ In k go_read_keys -> go_setup sch (d_put conf k v) = go_setup sch conf.
Proof.
  intros I. assert (G : forall x, In x go_read_keys -> d_get (d_put conf k v) [x] = d_get conf [x]).
  { intros x Ix. apply put_other. intros ->. exact (I Ix). }
  assert (T : forall x d, In x go_read_keys -> config_string (d_put conf k v) x d = config_string conf x d).
  { intros x d Ix. unfold config_string, d_has, d_string. rewrite (G x Ix). reflexivity. }
  assert (B : forall x d, In x go_read_keys -> config_bool (d_put conf k v) x d = config_bool conf x d).
  { intros x d Ix. unfold config_bool, d_has, d_bool. rewrite (G x Ix). reflexivity. }
  unfold go_setup. rewrite !T, !B by (simpl; tauto). reflexivity.
Qed.
Lemma clause_last p : clause_of p (package_name p).
Proof.
  unfold package_name. destruct (smem "." p) eqn:E; [|split; [apply no_char_smem; exact E|left; reflexivity]].
  pose proof (join_split "." p) as J. destruct (exists_last (split_nonempty "." p)) as (l & x & L). rewrite L in *.
  rewrite last_last. split; [apply no_char_smem, (split_no_sep "." p); rewrite L; apply in_or_app; right; left; reflexivity|].
  destruct l as [|y l]; [left; symmetry; exact J|right].
  exists (join "." (y :: l)). rewrite <- J. clear. revert y. induction l as [|z l IH]; intros y; [reflexivity|].
  change (y +++ "." +++ join "." ((z :: l) ++ [x]) = (y +++ "." +++ join "." (z :: l)) +++ "." +++ x). rewrite IH, !append_assoc. reflexivity.
Qed.

(** ** Places *)
Lemma split_end s : smem "/" s = false -> forall u, exists pre w, split "/" (u +++ s) = pre ++ [w +++ s].
Proof.
  intros S. induction u as [|a u (pre & w & IH)].
  - exists [], "". cbn. apply split_noc. exact S.
  - cbn [append split]. destruct (Ascii.eqb a "/").
    + exists ("" :: pre), w. change (String.append u s) with (u +++ s). rewrite IH. reflexivity.
    + change (String.append u s) with (u +++ s). rewrite IH. destruct pre as [|x pre]; [exists [], (String a w); reflexivity|exists (String a x :: pre), w; reflexivity].
Qed.
Lemma length_end a b : String.length (a +++ b) = String.length a + String.length b.
Proof. induction a as [|x a IH]; [reflexivity|]. cbn. change (String.append a b) with (a +++ b). rewrite IH. reflexivity. Qed.
Lemma place_end d u s : smem "/" s = false -> 3 <= String.length s ->
  exists pre w, comps (path_join [d; u +++ s]) = pre ++ [w +++ s] /\ smem "/" (w +++ s) = false.
Proof.
  intros S L. destruct (split_end s S u) as (pre & w & E).
  assert (Sw : smem "/" (w +++ s) = false) by (apply (split_no_sep "/" (u +++ s)); rewrite E; apply in_or_app; right; left; reflexivity).
  assert (P : plain_component (w +++ s)).
  { split; [split; [|split; [|apply no_char_smem; exact Sw]]|]; intros X; apply (f_equal String.length) in X; rewrite length_end in X; simpl in X; lia. }
  assert (N : (u +++ s =?s "") = false).
  { apply seqb_neq. intros X. apply (f_equal String.length) in X. rewrite length_end in X. simpl in X. lia. }
  assert (K : forall p pre', p <> "" -> split "/" p = pre' ++ [w +++ s] -> exists pre w0, comps (clean p) = pre ++ [w0 +++ s] /\ smem "/" (w0 +++ s) = false).
  { intros p pre' Np Ep. destruct (clean_idem p Np) as (_ & C & _). rewrite C. unfold comps. rewrite Ep, clean_comps_app, GenFacts.plain_step by exact P.
    cbn [clean_comps rev]. eauto. }
  unfold path_join. cbn [filter]. rewrite N. cbn [negb]. destruct (d =?s "") eqn:D; cbn [negb].
  - apply (K _ pre); [apply seqb_neq; exact N|exact E].
  - apply (K _ (split "/" d ++ pre)).
    + cbn [join]. intros X. apply (f_equal String.length) in X. rewrite !length_end in X. simpl in X. lia.
    + change (join "/" [d; u +++ s]) with (d +++ String "/" (u +++ s)). rewrite split_app_gen, E, app_assoc. reflexivity.
Qed.
Lemma app_end a : forall b x y, String.length x = String.length y -> a +++ x = b +++ y -> x = y.
Proof.
  intros b x y L E. assert (Q : String.length a = String.length b) by (apply (f_equal String.length) in E; rewrite !length_end in E; lia).
  revert b Q E. induction a as [|c a IH]; intros [|d b] Q E; try discriminate Q; [exact E|]. injection E as _ E. injection Q as Q. exact (IH b Q E).
Qed.
Lemma places_differ d d' u u' s s' : smem "/" s = false -> smem "/" s' = false -> 3 <= String.length s -> 3 <= String.length s' ->
  (forall a b, a +++ s <> b +++ s') -> path_join [d; u +++ s] <> path_join [d'; u' +++ s'].
Proof.
  intros S S' L L' N E. destruct (place_end d u s S L) as (pre & w & C & _). destruct (place_end d' u' s' S' L') as (pre' & w' & C' & _).
  rewrite E, C' in C. apply app_inj_tail in C. destruct C as [_ C]. exact (N _ _ (eq_sym C)).
Qed.
Definition ends : list string := ["_model.go"; "_server.go"; "_client.go"].
Lemma three_places outdir su : NoDup (map (go_place outdir su) ends).
Proof.
  assert (M : forall a b s, In s ["_server.go"; "_client.go"] -> a +++ "_model.go" <> b +++ s).
  { intros a b s I E. assert (X : exists c s', s = String c s' /\ String.length s' = 9 /\ s' <> "_model.go").
    { destruct I as [<-|[<-|[]]]; eexists _, _; (split; [reflexivity|split; [reflexivity|discriminate]]). }
    destruct X as (c & s' & -> & L & N). apply N. symmetry. apply (app_end a (b +++ String c "")); [symmetry; exact L|].
    rewrite E, append_assoc. reflexivity. }
  assert (Z : forall a b, a +++ "_server.go" <> b +++ "_client.go").
  { intros a b E. apply app_end in E; [discriminate|reflexivity]. }
  cbn [ends map]. repeat constructor; cbn [In]; try (intros [E|[E|[]]]); try (intros [E|[]]); try (intros []); revert E; unfold go_place; apply not_eq_sym, places_differ;
    try reflexivity; try (cbn; lia); try (intros a b; apply M; cbn; tauto). exact Z.
Qed.

(** ** The files *)
Section Export.
Context (sprint : value -> string) (parse_time : string -> option timestamp) (force : bool) (i : io).
Context (sch : schema) (m : model) (Hm : new_model sch = Ok m) (su : gosetup) (outdir : string).
Notation pkg := (package_name (gs_package su)).
Notation mtext := (create_model m (gs_runtime su) (gs_name su) pkg).
Notation stext := (create_server sprint parse_time m (gs_runtime su) (gs_name su) pkg).
Notation ctext := (create_client m (gs_runtime su) (gs_name su) pkg).
Notation at_ := (go_place outdir su).
Lemma model_file_is s : mtext = Ok s -> model_file timestamp_type decimal_type sch su s.
Proof.
  intros E. destruct (file_spec sch m Hm _ _ _ s E) as (is & ds & E1 & F & _). exists pkg, is, ds. split; [apply clause_last|]. split; assumption.
Qed.
Lemma server_file_is s : stext = Ok s ->
  server_file server_library sprint (fun s t => parse_time s = Some t) (fun t s => s = ts_string t) sch su s.
Proof.
  intros E. destruct (server_spec sch m Hm _ _ _ _ _ s E) as (is & service & small & hs & E1 & L & Sm & F & _).
  exists pkg, is, service, small, hs. split; [apply clause_last|]. split; [exact E1|]. split; [exact L|]. split; assumption.
Qed.
Lemma client_file_is s : ctext = Ok s -> client_file sch su s.
Proof.
  intros E. destruct (client_spec sch m Hm _ _ _ s E) as (is & large & cs & E1 & L & F & _).
  exists pkg, is, large, cs. split; [apply clause_last|]. split; [exact E1|]. split; assumption.
Qed.
Context (Hs : io_stat i = false) (Ho : io_open i = true).
Lemma write_one path s g : g_err g = false -> String.length s <= io_room i ->
  g_err (write_guarded force path s i g) = false
  /\ (forall p, p <> path -> g_fs (write_guarded force path s i g) p = g_fs g p)
  /\ g_fs (write_guarded force path s i g) path = left_at force (g_fs g path) s.
Proof.
  intros E R. unfold write_guarded, write_file. rewrite E, Hs, Ho. cbv zeta.
  assert (Sh : (io_room i <? String.length s) = false) by (apply Nat.ltb_ge; exact R). rewrite Sh.
  assert (W : forall p, set_file path (stake (io_room i) s) (g_fs g) p = if string_dec p path then Some s else g_fs g p).
  { intros p. unfold set_file. rewrite stake_all by exact R. destruct (string_dec p path) as [->|N]; [rewrite seqb_refl; reflexivity|]. apply seqb_neq in N. rewrite N. reflexivity. }
  unfold left_at. destruct force; cbn [negb andb orb].
  - cbn. split; [reflexivity|]. split; [intros p N; rewrite W; destruct (string_dec p path); [contradiction|reflexivity]|]. rewrite W. destruct (string_dec path path); [reflexivity|contradiction].
  - destruct (g_fs g path) as [c|] eqn:G; cbn.
    + split; [exact E|]. split; [reflexivity|exact G].
    + split; [reflexivity|]. split; [intros p N; rewrite W; destruct (string_dec p path); [contradiction|reflexivity]|]. rewrite W. destruct (string_dec path path); [reflexivity|contradiction].
Qed.
(** one part that does not crash: [bad]: it fails *)
Lemma part_spec on r path g : g_err g = false -> (r = Err tt \/ exists s, r = Ok s /\ String.length s <= io_room i) ->
  exists g', go_part force i on r path g = Ok g'
    /\ (g_err g' = true <-> on = true /\ r = Err tt)
    /\ (on = true -> forall s, r = Ok s -> g_fs g' path = left_at force (g_fs g path) s)
    /\ (forall p, ~ (on = true /\ r <> Err tt /\ p = path) -> g_fs g' p = g_fs g p).
Proof.
  intros E R. unfold go_part. rewrite E, orb_false_r. destruct on; cbn [negb].
  - destruct R as [->|(s & -> & L)].
    + eexists. split; [reflexivity|]. cbn. split; [tauto|]. split; [discriminate|reflexivity].
    + destruct (write_one path s g E L) as (K1 & K2 & K3). eexists. split; [reflexivity|].
      split; [rewrite K1; split; [discriminate|intros [_ D]; discriminate]|].
      split; [intros _ s' D; injection D as <-; exact K3|]. intros p N. apply K2. intros ->. apply N. split; [reflexivity|]. split; [discriminate|reflexivity].
  - eexists. split; [reflexivity|]. split; [rewrite E; split; [discriminate|intros [D _]; discriminate]|]. split; [discriminate|reflexivity].
Qed.
Lemma part_stopped on r path g : g_err g = true -> go_part force i on r path g = Ok g.
Proof. intros E. unfold go_part. rewrite E, orb_true_r. reflexivity. Qed.
Definition roomy_for : Prop := forall s, mtext = Ok s \/ stext = Ok s \/ ctext = Ok s -> String.length s <= io_room i.
Definition server_bad : Prop := gs_server su = true /\ server_fails sch.
Definition client_bad : Prop := gs_client su = true /\ client_fails sch.
Theorem go_export_spec g : g_err g = false -> roomy_for ->
  let r := go_export sprint parse_time force i true outdir m su g in
  (r = Panic <-> gs_model su = true /\ go_fails sch)
  /\ (r <> Panic -> exists g', r = Ok g'
      /\ (g_err g' = true <-> server_bad \/ client_bad)
      /\ (gs_model su = true -> exists s, model_file timestamp_type decimal_type sch su s /\ g_fs g' (at_ "_model.go") = left_at force (g_fs g (at_ "_model.go")) s)
      /\ (gs_server su = true -> ~ server_fails sch ->
          exists s, server_file server_library sprint (fun s t => parse_time s = Some t) (fun t s => s = ts_string t) sch su s
                    /\ g_fs g' (at_ "_server.go") = left_at force (g_fs g (at_ "_server.go")) s)
      /\ (gs_client su = true -> ~ client_fails sch -> ~ server_bad ->
          exists s, client_file sch su s /\ g_fs g' (at_ "_client.go") = left_at force (g_fs g (at_ "_client.go")) s)
      /\ forall p, ~ (gs_model su = true /\ p = at_ "_model.go") -> ~ (gs_server su = true /\ ~ server_fails sch /\ p = at_ "_server.go") ->
           ~ (gs_client su = true /\ ~ client_fails sch /\ ~ server_bad /\ p = at_ "_client.go") -> g_fs g' p = g_fs g p).
Proof.
  intros E Room. cbv zeta. unfold go_export. cbv zeta.
  assert (E0 : g_err (ensure_dir true g) = false) by (unfold ensure_dir; rewrite E; reflexivity).
  assert (F0 : g_fs (ensure_dir true g) = g_fs g) by (unfold ensure_dir; rewrite E; reflexivity).
  rewrite <- F0. clear F0. generalize dependent (ensure_dir true g). clear g E. intros g E.
  pose proof (three_places outdir su) as D. cbn [ends map] in D. inversion D as [|? ? D1 D']; subst. inversion D' as [|? ? D2 _]; subst. clear D D'.
  cbn [In] in D1, D2.
  assert (MS : at_ "_model.go" <> at_ "_server.go") by (intros X; apply D1; left; symmetry; exact X).
  assert (MC : at_ "_model.go" <> at_ "_client.go") by (intros X; apply D1; right; left; symmetry; exact X).
  assert (SC : at_ "_server.go" <> at_ "_client.go") by (intros X; apply D2; left; symmetry; exact X). clear D1 D2.
  generalize dependent (at_ "_model.go"). generalize dependent (at_ "_server.go"). generalize dependent (at_ "_client.go"). intros pc ps SC pm MS MC.
  pose proof model_file_is as KM. pose proof server_file_is as KS. pose proof client_file_is as KC.
  pose proof (file_total sch m Hm (gs_runtime su) (gs_name su) pkg) as TM.
  pose proof (server_total sch m Hm (gs_runtime su) sprint parse_time (gs_name su) pkg) as TS.
  pose proof (client_total sch m Hm (gs_runtime su) (gs_name su) pkg) as TC.
  unfold roomy_for in Room. unfold server_bad, client_bad.
  generalize dependent mtext. generalize dependent stext. generalize dependent ctext. intros rc KC TC rs KS TS rm Room KM TM.
  assert (RS : rs = Err tt \/ exists s, rs = Ok s /\ String.length s <= io_room i) by (destruct TS as [[H _]|(_ & s & H)]; [left; exact H|right; exists s; split; [exact H|apply Room; auto]]).
  assert (RC : rc = Err tt \/ exists s, rc = Ok s /\ String.length s <= io_room i) by (destruct TC as [[H _]|(_ & s & H)]; [left; exact H|right; exists s; split; [exact H|apply Room; auto]]).
  assert (FS : rs = Err tt <-> server_fails sch) by (destruct TS as [[H F]|(F & s & H)]; rewrite H; split; intros X; try assumption; try reflexivity; [discriminate|contradiction]).
  assert (FC : rc = Err tt <-> client_fails sch) by (destruct TC as [[H F]|(F & s & H)]; rewrite H; split; intros X; try assumption; try reflexivity; [discriminate|contradiction]).
  assert (OS : ~ server_fails sch -> exists s, rs = Ok s) by (destruct TS as [[_ F]|(_ & s & H)]; [contradiction|eauto]).
  assert (OC : ~ client_fails sch -> exists s, rc = Ok s) by (destruct TC as [[_ F]|(_ & s & H)]; [contradiction|eauto]).
  clear TS TC.
  (* the server and the client *)
  assert (T : forall g1, g_err g1 = false -> exists g', (g2 <- go_part force i (gs_server su) rs ps g1 ;; go_part force i (gs_client su) rc pc g2) = Ok g'
    /\ (g_err g' = true <-> gs_server su = true /\ server_fails sch \/ gs_client su = true /\ client_fails sch)
    /\ (gs_server su = true -> ~ server_fails sch -> exists s, rs = Ok s /\ g_fs g' ps = left_at force (g_fs g1 ps) s)
    /\ (gs_client su = true -> ~ client_fails sch -> ~ (gs_server su = true /\ server_fails sch) -> exists s, rc = Ok s /\ g_fs g' pc = left_at force (g_fs g1 pc) s)
    /\ forall p, ~ (gs_server su = true /\ ~ server_fails sch /\ p = ps) ->
         ~ (gs_client su = true /\ ~ client_fails sch /\ ~ (gs_server su = true /\ server_fails sch) /\ p = pc) -> g_fs g' p = g_fs g1 p).
  { intros g1 E1. destruct (part_spec (gs_server su) rs ps g1 E1 RS) as (g2 & -> & B2 & W2 & U2). rewrite rbind_now. cbv beta iota.
    destruct (g_err g2) eqn:E2.
    - assert (Bad : gs_server su = true /\ server_fails sch) by (destruct (proj1 B2 eq_refl) as [X Y]; split; [exact X|apply FS; exact Y]).
      rewrite part_stopped by exact E2. exists g2. split; [reflexivity|]. split; [tauto|]. split; [tauto|]. split; [tauto|].
      intros p N _. apply U2. intros (_ & X & _). apply X. apply FS. tauto.
    - assert (Good : ~ (gs_server su = true /\ server_fails sch)).
      { intros [X Y]. apply FS in Y. assert (Z : false = true) by (apply B2; split; assumption). discriminate. }
      destruct (part_spec (gs_client su) rc pc g2 E2 RC) as (g3 & -> & B3 & W3 & U3). exists g3. split; [reflexivity|].
      split; [rewrite B3, FC; tauto|]. split; [|split].
      + intros On F. destruct (OS F) as (s & Es). exists s. split; [exact Es|]. rewrite U3 by (intros (_ & _ & X); exact (SC X)). exact (W2 On s Es).
      + intros On F _. destruct (OC F) as (s & Es). exists s. split; [exact Es|]. rewrite <- (U2 pc) by (intros (_ & _ & X); exact (SC (eq_sym X))). exact (W3 On s Es).
      + intros p N1 N2. rewrite U3; [apply U2|].
        * intros (X & Y & Z). apply N1. split; [exact X|]. split; [intros F; apply Y, FS, F|exact Z].
        * intros (X & Y & Z). apply N2. split; [exact X|]. split; [intros F; apply Y, FC, F|]. split; [exact Good|exact Z]. }
  clear RS RC FS FC OS OC.
  (* the model *)
  assert (Q : rm = Panic /\ go_fails sch \/ (exists s, rm = Ok s) /\ ~ go_fails sch) by exact TM. clear TM.
  assert (Mod : gs_model su = true /\ rm = Panic \/ exists g1, go_part force i (gs_model su) rm pm g = Ok g1 /\ g_err g1 = false
     /\ (gs_model su = true -> exists s, rm = Ok s /\ g_fs g1 pm = left_at force (g_fs g pm) s) /\ (forall p, ~ (gs_model su = true /\ p = pm) -> g_fs g1 p = g_fs g p)
     /\ ~ (gs_model su = true /\ go_fails sch)).
  { destruct (gs_model su) eqn:On.
    - destruct Q as [[-> _]|[[s Es] F]]; [left; split; reflexivity|right].
      destruct (part_spec true rm pm g E (or_intror (ex_intro _ s (conj Es (Room s (or_introl Es)))))) as (g1 & R1 & B1 & W1 & U1).
      exists g1. split; [exact R1|]. split.
      { destruct (g_err g1); [|reflexivity]. destruct (proj1 B1 eq_refl) as [_ X]. rewrite Es in X. discriminate. }
      split; [intros _; exists s; split; [exact Es|exact (W1 eq_refl s Es)]|]. split; [|tauto].
      intros p N. apply U1. intros (X & _ & Y). apply N. split; assumption.
    - right. exists g. unfold go_part. cbn [negb orb]. split; [reflexivity|]. split; [exact E|]. split; [discriminate|]. split; [reflexivity|]. intros [X _]. discriminate. }
  destruct Mod as [[On Pm]|(g1 & R1 & E1 & W1 & U1 & F)].
  - assert (X : go_part force i (gs_model su) rm pm g = Panic) by (unfold go_part; rewrite On, E, Pm; reflexivity). rewrite X. cbn [rbind].
    destruct Q as [[_ F]|[[s Es] _]]; [|rewrite Pm in Es; discriminate]. split; [tauto|]. intros N. destruct (N eq_refl).
  - rewrite R1, rbind_now. cbv beta iota. destruct (T g1 E1) as (g' & -> & B & TS & TC & U). split; [split; [discriminate|intros X; destruct (F X)]|].
    intros _. exists g'. split; [reflexivity|]. split; [exact B|]. split; [|split; [|split]].
    + intros On. destruct (W1 On) as (s & Es & X). exists s. split; [exact (KM s Es)|]. rewrite U; [exact X| |].
      * intros (_ & _ & Y). exact (MS Y).
      * intros (_ & _ & _ & Y). exact (MC Y).
    + intros On Fs. destruct (TS On Fs) as (s & Es & X). exists s. split; [exact (KS s Es)|]. rewrite <- (U1 ps); [exact X|]. intros (_ & Y). exact (MS (eq_sym Y)).
    + intros On Fc Fs. destruct (TC On Fc Fs) as (s & Es & X). exists s. split; [exact (KC s Es)|]. rewrite <- (U1 pc); [exact X|]. intros (_ & Y). exact (MC (eq_sym Y)).
    + intros p N1 N2 N3. rewrite U by assumption. apply U1. exact N1.
Qed.
Lemma go_export_no_dir g : g_err g = false -> exists g', go_export sprint parse_time force i false outdir m su g = Ok g' /\ g_err g' = true /\ g_fs g' = g_fs g.
Proof.
  intros E. unfold go_export. cbv zeta. set (g0 := ensure_dir false g). assert (E0 : g_err g0 = true) by (unfold g0, ensure_dir; rewrite E; reflexivity).
  rewrite (part_stopped _ _ _ _ E0), rbind_now. cbv beta iota. rewrite (part_stopped _ _ _ _ E0), rbind_now. cbv beta iota. rewrite (part_stopped _ _ _ _ E0).
  exists g0. split; [reflexivity|]. split; [exact E0|]. unfold g0, ensure_dir. rewrite E. reflexivity.
Qed.
End Export.
