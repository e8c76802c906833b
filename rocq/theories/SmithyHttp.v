(** The shapes of actions and operations read as actions and operations. *)
From Verif Require Import GoStr Outcome Value Schema Misc MiscFacts Model SpecModel ModelFacts SpecPV PVFacts SpecMisc SpecGen OpenApi SpecOpenApi
  OpenApiFacts SpecImport Smithy SmithyFacts SmithyAst SpecSmithy SmithyWrite SmithyShapes SmithyFinal SmithyTypes SmithyRead.

(** ** Names *)
Lemma cap_cap s : cap (cap s) = cap s.
Proof.
  destruct s as [|c r]; [reflexivity|]. unfold cap. destruct ((97 <=? nat_of_ascii c) && (nat_of_ascii c <=? 122)) eqn:E.
  - rewrite nat_ascii_embedding by (apply andb_true_iff in E; destruct E as [E1 E2]; apply Nat.leb_le in E1, E2; lia).
    destruct ((97 <=? nat_of_ascii c - 32) && (nat_of_ascii c - 32 <=? 122)) eqn:F; [|reflexivity].
    apply andb_true_iff in E, F. destruct E as [E1 E2], F as [F1 F2]. apply Nat.leb_le in E1, E2, F1, F2. lia.
  - rewrite E. reflexivity.
Qed.
Lemma uncap_of_cap s : uncap (cap s) = uncap s.
Proof.
  destruct s as [|c r]; [reflexivity|]. unfold cap, uncap. destruct ((97 <=? nat_of_ascii c) && (nat_of_ascii c <=? 122)) eqn:E.
  - apply andb_true_iff in E. destruct E as [E1 E2]. apply Nat.leb_le in E1, E2. rewrite nat_ascii_embedding by lia.
    assert (F : (65 <=? nat_of_ascii c - 32) && (nat_of_ascii c - 32 <=? 90) = true) by (apply andb_true_iff; split; apply Nat.leb_le; lia). rewrite F.
    assert (G : (65 <=? nat_of_ascii c) && (nat_of_ascii c <=? 90) = false) by (apply andb_false_iff; right; apply Nat.leb_gt; lia). rewrite G.
    replace (nat_of_ascii c - 32 + 32) with (nat_of_ascii c) by lia. rewrite ascii_nat_embedding. reflexivity.
  - reflexivity.
Qed.
Lemma cap_of_uncap s : cap (uncap s) = cap s.
Proof.
  destruct s as [|c r]; [reflexivity|]. unfold cap, uncap. destruct ((65 <=? nat_of_ascii c) && (nat_of_ascii c <=? 90)) eqn:E.
  - apply andb_true_iff in E. destruct E as [E1 E2]. apply Nat.leb_le in E1, E2. rewrite nat_ascii_embedding by lia.
    assert (F : (97 <=? nat_of_ascii c + 32) && (nat_of_ascii c + 32 <=? 122) = true) by (apply andb_true_iff; split; apply Nat.leb_le; lia). rewrite F.
    assert (G : (97 <=? nat_of_ascii c) && (nat_of_ascii c <=? 122) = false) by (apply andb_false_iff; left; apply Nat.leb_gt; lia). rewrite G.
    replace (nat_of_ascii c + 32 - 32) with (nat_of_ascii c) by lia. rewrite ascii_nat_embedding. reflexivity.
  - reflexivity.
Qed.
Lemma not_tail x s t : (exists l, length (list_ascii_of_string t) = l /\ l < length (list_ascii_of_string s)) -> x +++ s <> t.
Proof.
  intros (l & <- & H) <-. assert (E : forall a b, length (list_ascii_of_string (a +++ b)) = length (list_ascii_of_string a) + length (list_ascii_of_string b)).
  { intros a b. induction a as [|c a IH]; simpl; [reflexivity|]. rewrite IH. reflexivity. }
  rewrite E in H. lia.
Qed.
Lemma out_name_back insuf outsuf n : suffixes insuf outsuf -> no_hash n -> shape_to_type (n +++ outsuf) = n +++ outsuf.
Proof.
  intros S H. assert (HO : no_hash outsuf) by (destruct S as [[_ ->]|[_ ->]]; apply no_char_smem; reflexivity).
  assert (HH : no_hash (n +++ outsuf)) by (apply no_hash_app; assumption). unfold shape_to_type.
  assert (Q : forall a b, has_char "#" a -> (forall x, x +++ outsuf <> b) -> str_mem (n +++ outsuf) [a; b] = false).
  { intros a b A B. destruct (str_mem _ _) eqn:E; [|reflexivity]. apply str_mem_In in E. destruct E as [E|[E|[]]]; [subst a; contradiction|]. symmetry in E. elim (B _ E). }
  assert (T : forall b, In b ["Blob"; "Boolean"; "String"; "Byte"; "Short"; "Integer"; "Long"; "Float"; "Double"; "BigInteger"; "BigDecimal"; "Timestamp"; "Document"] -> forall x, x +++ outsuf <> b).
  { intros b I x E. destruct S as [[_ ->]|[_ ->]]; simpl in I;
      repeat (destruct I as [<-|I]; [repeat (destruct x as [|? x]; [discriminate E|injection E as _ E]); destruct x; discriminate E|]); destruct I. }
  assert (C : forall s, has_char "#" ("smithy.api#" +++ s)) by (intros s; exists "smithy.api", s; reflexivity).
  repeat (rewrite Q; [|apply (C _)|apply T; simpl; tauto]). apply strip_plain. exact HH.
Qed.

Section Http.
Context (L : slib) (ns insuf outsuf : string).
Hypothesis HU : user_namespace ns.
Hypothesis HS : suffixes insuf outsuf.
Notation id_of := (id_of ns).
Lemma suf_no_hash : no_hash insuf /\ no_hash outsuf.
Proof. destruct HS as [[-> ->]|[-> ->]]; split; apply no_char_smem; reflexivity. Qed.
Lemma user_name n : no_hash n -> shape_to_type (id_of n) = n.
Proof. destruct HU. apply user_back; assumption. Qed.
Lemma op_name_back n : identifier n -> uncapitalize (strip_namespace (id_of (cap n))) = uncap n.
Proof.
  intros I. rewrite (strip_id ns HU). rewrite uncap_eq by (apply cap_identifier; exact I). apply uncap_of_cap.
Qed.

(** ** Pages *)
Lemma items_get k items : forall acc l, paginated_items items acc = Ok l ->
  (exists a i b v r, items = a ++ i :: b /\ split "=" i = k :: v :: r /\ get k l = Some (TStr v) /\ forall x y s, In x b -> split "=" x <> k :: y :: s)
  \/ ((forall x y s, In x items -> split "=" x <> k :: y :: s) /\ get k l = get k acc).
Proof.
  induction items as [|i items IH]; cbn [paginated_items]; intros acc l H; [injection H as <-; right; split; [intros x y s []|reflexivity]|].
  destruct (split "=" i) as [|k' [|v' r']] eqn:E; [discriminate ..|]. destruct (IH _ _ H) as [(a & j & b & v & r & -> & Q)|[N G]].
  - left. exists (i :: a), j, b, v, r. split; [reflexivity|exact Q].
  - rewrite get_put in G. destruct (k =?s k') eqn:X.
    + apply seqb_eq in X. subst k'. left. exists [], i, items, v', r'. auto.
    + right. split; [|exact G]. intros x y s [<-|I]; [|apply N; exact I]. rewrite E. intros F. injection F as F _ _. subst k'. rewrite seqb_refl in X. discriminate.
Qed.
Lemma split_eq_pair i k v r : split "=" i = k :: v :: r -> no_char "=" k /\ no_char "=" v /\ exists t, i = k +++ "=" +++ v \/ i = k +++ "=" +++ v +++ "=" +++ t.
Proof.
  intros E. split; [|split]; [apply no_char_smem; apply (split_no_sep "=" i); rewrite E; simpl; tauto ..|].
  pose proof (join_split "=" i) as J. rewrite E in J. destruct r as [|x r]; [exists ""; left; symmetry; exact J|].
  exists (join "=" (x :: r)). right. symmetry. exact J.
Qed.
Lemma pair_split k v r : no_char "=" k -> no_char "=" v -> split "=" (k +++ "=" +++ v) = [k; v] /\ split "=" (k +++ "=" +++ v +++ "=" +++ r) = k :: v :: split "=" r.
Proof.
  intros A B. apply no_char_smem in A, B. split.
  - change ("=" +++ v) with (String "=" v). rewrite split_app by exact A. rewrite split_noc by exact B. reflexivity.
  - change ("=" +++ v +++ "=" +++ r) with (String "=" (v +++ String "=" r)). rewrite split_app by exact A. rewrite split_app by exact B. reflexivity.
Qed.
Lemma head_split k r : no_char "=" k -> exists v t, split "=" (k +++ "=" +++ r) = k :: v :: t.
Proof.
  intros A. apply no_char_smem in A. change ("=" +++ r) with (String "=" r). rewrite split_app by exact A. destruct (split "=" r) as [|v t] eqn:E; [elim (split_nonempty _ _ E)|]. eauto.
Qed.
Lemma setting_text s l k : no_char "=" k -> paginated_items (split "," s) [] = Ok l -> setting_or s k (t_text k l).
Proof.
  intros HK H. assert (NC : forall x, In x (split "," s) -> no_char "," x) by (intros x I; apply no_char_smem; apply (split_no_sep "," s); exact I).
  destruct (items_get k _ _ _ H) as [(a & i & b & v & r & E & E2 & G & N)|[N G]].
  - left. unfold t_text. rewrite G. simpl. exists a, i, b. split; [rewrite <- E; symmetry; apply (join_split "," s)|]. split; [rewrite <- E; exact NC|].
    destruct (split_eq_pair _ _ _ _ E2) as (A & B & t & C). split; [exists t; auto|]. intros x r' I ->. destruct (head_split k r' HK) as (y & z & F). apply (N _ y z I F).
  - right. unfold t_text. rewrite G. split; [reflexivity|]. intros w (a & i & b & E & C & (r & Q & A & B) & _).
    assert (S : split "," s = a ++ i :: b).
    { rewrite E. apply (split_join ","); [destruct a; discriminate|]. intros x I. apply no_char_smem. apply C. exact I. }
    destruct (pair_split k w r A B) as [P1 P2]. destruct Q as [-> | ->]; [apply (N (k +++ "=" +++ w) w []); [rewrite S; apply in_app_iff; simpl; auto|exact P1]|].
    apply (N (k +++ "=" +++ w +++ "=" +++ r) w (split "=" r)); [rewrite S; apply in_app_iff; simpl; auto|exact P2].
Qed.

Lemma in_suf_hash n : no_hash n -> no_hash (n +++ insuf) /\ no_hash (n +++ outsuf).
Proof. intros H. destruct suf_no_hash. split; apply no_hash_app; assumption. Qed.

(** ** Traits of actions *)
Definition op_traits : list string :=
  ["smithy.api#documentation"; "smithy.api#http"; "smithy.api#tags"; "smithy.api#paginated"; "smithy.api#readonly"; "smithy.api#idempotent"; "smithy.api#examples"].
Lemma action_traits_spec base h t : action_traits base h = Ok t ->
  NoDup (map fst t) /\ (forall k, In k (map fst t) -> In k op_traits)
  /\ get "smithy.api#documentation" t = Some (TStr (h_comment h))
  /\ get "smithy.api#http" t = Some (http_trait (cut_query (base +++ h_path h)) (h_method h) (match h_expected h with Some e => xp_status e | None => 200%Z end))
  /\ get "smithy.api#tags" t = option_map (fun v => TArr (map TStr (split "," v))) (get "x_tags" (h_annos h))
  /\ (forall tv, get "smithy.api#paginated" t = Some tv <-> exists v l, get "x_paginated" (h_annos h) = Some v /\ paginated_items (split "," v) [] = Ok l /\ tv = TObj l)
  /\ get "smithy.api#examples" t = None.
Proof.
  unfold action_traits. intros H. apply rbind_Ok in H. destruct H as (t2 & H & E). injection E as <-.
  set (t1 := match get "x_tags" (h_annos h) with Some v => _ | None => _ end) in H.
  match goal with |- context [if h_method h =?s "GET" then ?x else ?y] => set (t3 := if h_method h =?s "GET" then x else y) end.
  assert (F : t3 = t2 \/ exists q, (q = "smithy.api#readonly" \/ q = "smithy.api#idempotent") /\ t3 = put q (TBool true) t2).
  { unfold t3. destruct (h_method h =?s "GET"); [right; eexists; split; [left; reflexivity|reflexivity]|]. match goal with |- context [if ?b then _ else _] => destruct b end; [right; eexists; split; [right; reflexivity|reflexivity]|auto]. }
  clearbody t3.
  assert (T1 : NoDup (map fst t1) /\ (forall k, In k (map fst t1) -> In k op_traits) /\ get "smithy.api#documentation" t1 = Some (TStr (h_comment h))
    /\ get "smithy.api#http" t1 = Some (http_trait (cut_query (base +++ h_path h)) (h_method h) (match h_expected h with Some e => xp_status e | None => 200%Z end))
    /\ get "smithy.api#tags" t1 = option_map (fun v => TArr (map TStr (split "," v))) (get "x_tags" (h_annos h))
    /\ get "smithy.api#paginated" t1 = None /\ get "smithy.api#examples" t1 = None).
  { unfold t1. destruct (get "x_tags" (h_annos h)) as [v|]; simpl; (split; [repeat constructor; simpl; intuition discriminate|]); (split; [intros k I; simpl; tauto|]); auto. }
  destruct T1 as (N1 & K1 & G1 & G2 & G3 & G4 & G5). clearbody t1.
  assert (T2 : NoDup (map fst t2) /\ (forall k, In k (map fst t2) -> In k op_traits) /\ (forall q, q <> "smithy.api#paginated" -> get q t2 = get q t1)
     /\ (forall tv, get "smithy.api#paginated" t2 = Some tv <-> exists v l, get "x_paginated" (h_annos h) = Some v /\ paginated_items (split "," v) [] = Ok l /\ tv = TObj l)).
  { destruct (get "x_paginated" (h_annos h)) as [v|] eqn:E.
    - apply rbind_Ok in H. destruct H as (p & P & H). injection H as <-. unfold paginated_trait in P. apply rbind_Ok in P. destruct P as (l & P & X). injection X as <-.
      split; [apply put_nodup; exact N1|]. split; [intros k I; apply put_keys in I; destruct I as [I|I]; [subst k; simpl; tauto|apply K1; exact I]|].
      split; [intros q Q; rewrite get_put; apply seqb_neq in Q; rewrite Q; reflexivity|]. intros tv. rewrite get_put. simpl. split.
      + intros X. injection X as <-. eauto.
      + intros (v' & l' & X & Y & ->). injection X as <-. congruence.
    - injection H as <-. split; [exact N1|]. split; [exact K1|]. split; [reflexivity|]. intros tv. rewrite G4. split; [discriminate|]. intros (v' & l' & X & _). discriminate. }
  destruct T2 as (N2 & K2 & O2 & P2).
  destruct F as [-> |(q & Q & ->)].
  - rewrite !O2 by discriminate. repeat (split; [assumption|]). rewrite O2 by discriminate. exact G5.
  - split; [apply put_nodup; exact N2|]. split; [intros k I; apply put_keys in I; destruct I as [I|I]; [subst k; destruct Q as [-> | ->]; simpl; tauto|apply K2; exact I]|].
    rewrite !get_put. destruct Q as [-> | ->]; cbn [String.eqb Ascii.eqb Bool.eqb]; rewrite !O2 by discriminate; repeat (split; [assumption|]); rewrite O2 by discriminate; exact G5.
Qed.

(** ** Members of inputs and outputs *)
Lemma input_bits p : let m := input_member ns p in
  t_bool L "smithy.api#httpLabel" (mb_traits m) = ps_path p
  /\ t_text "smithy.api#httpQuery" (mb_traits m) = (if ps_path p then "" else ps_query p)
  /\ t_text "smithy.api#httpHeader" (mb_traits m) = (if ps_path p then "" else if ps_query p =?s "" then ps_header p else "")
  /\ t_bool L "smithy.api#required" (mb_traits m) = ps_path p
  /\ (is_payload_member L m = true <-> ps_path p = false /\ ps_query p = "" /\ ps_header p = "")
  /\ (t_bool L "smithy.api#httpQuery" (mb_traits m) = if ps_path p then false else if ps_query p =?s "" then false else sl_true L (TStr (ps_query p))).
Proof.
  unfold input_member, is_payload_member, t_bool, t_text. cbn zeta. simpl mb_traits. destruct (ps_path p); [simpl; repeat split; try reflexivity; intros; try discriminate; intuition discriminate|].
  destruct (ps_query p =?s "") eqn:E.
  - apply seqb_eq in E. rewrite E. simpl negb. cbn match. destruct (ps_header p =?s "") eqn:F.
    + apply seqb_eq in F. rewrite F. simpl. repeat split.
    + apply seqb_neq in F. simpl. repeat split; try discriminate. intros (_ & _ & X). contradiction.
  - apply seqb_neq in E. simpl. repeat split; try discriminate. intros (_ & X & _). contradiction.
Qed.
Lemma input_read p : no_hash (ts_type (fd_spec (ps_field p))) -> in_back p (read_param L (param_name p, input_member ns p)).
Proof.
  intros H. destruct (input_bits p) as (B1 & B2 & B3 & B4 & _). cbn zeta in *. unfold read_param. rewrite B1, B2, B3, B4. unfold input_member at 1. simpl mb_target.
  rewrite (reference_back ns HU) by exact H. destruct (ps_path p) eqn:E; [apply inb_path; [exact E|reflexivity]|]. destruct (ps_query p =?s "") eqn:F.
  - apply seqb_eq in F. rewrite F. apply inb_header; [exact E|exact F|reflexivity].
  - apply seqb_neq in F. apply inb_query; [exact E|exact F|reflexivity].
Qed.
Lemma output_bits p : let m := output_member ns p in
  t_bool L "smithy.api#httpLabel" (mb_traits m) = false /\ (is_payload_member L m = true <-> ps_header p = "").
Proof.
  unfold output_member, is_payload_member, t_bool. cbn zeta. simpl mb_traits. destruct (ps_header p =?s "") eqn:F; simpl; (split; [reflexivity|]).
  - apply seqb_eq in F. tauto.
  - apply seqb_neq in F. split; [discriminate|contradiction].
Qed.
Lemma output_read p : no_hash (ts_type (fd_spec (ps_field p))) -> out_back p (read_param L (param_name p, output_member ns p)).
Proof.
  intros H. unfold read_param, output_member, out_back, param_back, t_text, t_bool, param_name. simpl mb_target. simpl mb_traits. rewrite (reference_back ns HU) by exact H.
  destruct (ps_header p =?s "") eqn:F; simpl; [apply seqb_eq in F; rewrite F|]; reflexivity.
Qed.
Lemma payload_ne ms : (forall k m, In (k, m) ms -> k <> "") -> (negb (payload_member L ms =?s "") = true <-> exists k m, In (k, m) ms /\ is_payload_member L m = true).
Proof.
  intros H. rewrite negb_true_iff, seqb_neq. unfold payload_member. induction ms as [|[k m] ms IH] using rev_ind; [simpl; split; [contradiction|intros (k & m & [] & _)]|].
  rewrite fold_left_app. simpl. destruct (is_payload_member L m) eqn:E.
  - split; [intros _; exists k, m; split; [apply in_app_iff; simpl; auto|exact E]|]. intros _. apply (H k m). apply in_app_iff. simpl. auto.
  - rewrite IH by (intros x y I; apply (H x y); apply in_app_iff; auto). split; intros (x & y & I & J); exists x, y; (split; [|exact J]).
    + apply in_app_iff. auto.
    + apply in_app_iff in I. destruct I as [I|[I|[]]]; [exact I|]. injection I as <- <-. congruence.
Qed.
Lemma inputs_show ps : (forall p, In p ps -> param_name p <> "") ->
  let ms := map (fun p => (param_name p, input_member ns p)) ps in
  negb (payload_member L ms =?s "") || existsb (fun km => is_label L (snd km) || is_in_query L (snd km)) ms = true <-> exists p, In p ps /\ shows L p.
Proof.
  intros H. cbn zeta. rewrite orb_true_iff, payload_ne, existsb_exists.
  2:{ intros k m I. apply in_map_iff in I. destruct I as (p & E & I). injection E as <- _. apply H. exact I. }
  unfold shows, is_label, is_in_query. split.
  - intros [(k & m & I & J)|([k m] & I & J)]; apply in_map_iff in I; destruct I as (p & E & I); injection E as <- <-; exists p; (split; [exact I|]);
      destruct (input_bits p) as (B1 & B2 & B3 & B4 & B5 & B6); cbn zeta in *.
    + apply B5 in J. tauto.
    + cbn [snd] in J. rewrite B1, B6 in J. destruct (ps_path p); [auto|]. rewrite !andb_false_r in J. cbn [orb negb] in J. rewrite andb_true_r in J. apply andb_true_iff in J. destruct J as [_ J].
      destruct (ps_query p =?s "") eqn:E; [discriminate|]. apply seqb_neq in E. auto.
  - intros (p & I & J). destruct (input_bits p) as (B1 & B2 & B3 & B4 & B5 & B6); cbn zeta in *. pose proof (in_map (fun p => (param_name p, input_member ns p)) _ _ I) as I2. cbn beta in I2.
    destruct (is_payload_member L (input_member ns p)) eqn:E; [left; exists (param_name p), (input_member ns p); auto|]. right. exists (param_name p, input_member ns p). split; [exact I2|]. cbn [snd]. rewrite E, B1, B6. cbn [negb andb].
    destruct (ps_path p) eqn:F; [reflexivity|]. simpl. destruct J as [J|[[J1 J2]|[J1 J2]]]; [discriminate|exfalso; assert (X : false = true) by (apply B5; auto); discriminate|].
    apply seqb_neq in J1. rewrite J1. exact J2.
Qed.
Lemma outputs_show ps : (forall p, In p ps -> param_name p <> "") ->
  let ms := map (fun p => (param_name p, output_member ns p)) ps in
  negb (payload_member L ms =?s "") || existsb (fun km => is_label L (snd km)) ms = true <-> exists p, In p ps /\ ps_header p = "".
Proof.
  intros H. cbn zeta. rewrite orb_true_iff, payload_ne, existsb_exists.
  2:{ intros k m I. apply in_map_iff in I. destruct I as (p & E & I). injection E as <- _. apply H. exact I. }
  unfold is_label. split.
  - intros [(k & m & I & J)|([k m] & I & J)]; apply in_map_iff in I; destruct I as (p & E & I); injection E as <- <-; destruct (output_bits p) as (B1 & B2); cbn zeta in *.
    + exists p. split; [exact I|apply B2; exact J].
    + cbn [snd] in J. rewrite B1, andb_false_r in J. discriminate.
  - intros (p & I & J). left. exists (param_name p), (output_member ns p). split; [exact (in_map (fun p => (param_name p, output_member ns p)) _ _ I)|]. apply output_bits. exact J.
Qed.
Lemma query_names_eq ps : exists qs, without (fun i => ~ is_query i) ps qs
  /\ query_names (map (fun p => (param_name p, input_member ns p)) ps) = map param_name qs.
Proof.
  unfold query_names. induction ps as [|p ps (qs & W & E)]; [exists []; split; [constructor|reflexivity]|]. cbn [map filter snd]. destruct (input_bits p) as (_ & B2 & _); cbn zeta in *. rewrite B2.
  unfold is_query in *. destruct (ps_path p) eqn:F; [exists qs; split; [constructor; [intros []; congruence|exact W]|exact E]|].
  destruct (ps_query p =?s "") eqn:X; cbn [negb].
  - apply seqb_eq in X. exists qs. split; [constructor; [intros []; congruence|exact W]|exact E].
  - apply seqb_neq in X. exists (p :: qs). split; [constructor 3; [tauto|exact W]|]. cbn [map fst]. rewrite E. reflexivity.
Qed.

(** ** One document *)
Section Doc.
Context (sch : schema) (a : ast).
Hypothesis HP : plain_names sch.
Hypothesis NA : names_apart insuf outsuf sch.
Hypothesis ED : errors_declared sch.
Hypothesis AO : annos_once sch.
Hypothesis PO : params_once sch.
Hypothesis RP : refs_plain sch.
Hypothesis EX : smithy_export ns insuf outsuf sch = Ok a.
Notation shapes := (as_shapes a).
Lemma shapes_eq : shapes = entries ns insuf outsuf sch.
Proof. apply (export_entries ns insuf outsuf sch a HP NA ED EX). Qed.
Lemma get_entry k s : In (k, s) (entries ns insuf outsuf sch) -> get k shapes = Some s.
Proof. intros I. rewrite shapes_eq. apply get_In; [apply entries_nodup; exact NA|exact I]. Qed.
Lemma exportable : smithy_exportable insuf outsuf sch.
Proof. apply (exportable_iff ns insuf outsuf sch HP AO). exists a. exact EX. Qed.
Lemma type_shape_ok td : In td (sc_types sch) -> exists s, typedef_shape ns td = Ok s.
Proof. intros I. apply typedef_shape_iff. apply exportable. exact I. Qed.
Notation xs := (flat_map h_exceptions (sc_http sch)).

Section Action.
Context (h : httpdef).
Hypothesis IH : In h (sc_http sch).
Lemma h_id : identifier (h_name h).
Proof. apply HP. exact IH. Qed.
Lemma cap_no_hash : no_hash (cap (h_name h)).
Proof. apply identifier_no_hash. apply cap_identifier. apply h_id. Qed.
Lemma expected_some : exists e, h_expected h = Some e.
Proof. destruct exportable as (_ & X & _). specialize (X h IH). destruct (h_expected h) as [e|]; [eauto|contradiction]. Qed.
Lemma traits_ok : action_traits (sc_base sch) h = Ok (traits_of (sc_base sch) h).
Proof.
  destruct (proj2 (action_traits_iff (sc_base sch) h (proj1 AO h IH))) as (t & E); [|unfold traits_of; rewrite E; reflexivity].
  intros v I. apply (proj1 (proj2 (proj2 exportable)) h v IH I).
Qed.
Definition oshape : shape := with_examples (sc_examples sch) h (op_shape ns insuf outsuf (sc_base sch) h).
Lemma oshape_rest : sh_type oshape = "operation" /\ sh_input oshape = sh_input (op_shape ns insuf outsuf (sc_base sch) h)
  /\ sh_output oshape = sh_output (op_shape ns insuf outsuf (sc_base sch) h) /\ sh_errors oshape = map (fun x => id_of (xc_type x)) (h_exceptions h)
  /\ (forall q, q <> "smithy.api#examples" -> get q (sh_traits oshape) = get q (traits_of (sc_base sch) h))
  /\ NoDup (map fst (sh_traits oshape)) /\ (forall k, In k (map fst (sh_traits oshape)) -> In k op_traits).
Proof.
  destruct (action_traits_spec _ _ _ traits_ok) as (N & K & _).
  unfold oshape, with_examples. destruct (titles (sc_examples sch) h) as [|t l]; [repeat split; try reflexivity; assumption|].
  unfold add_trait. simpl. repeat split; try reflexivity.
  - intros q Q. rewrite get_put. apply seqb_neq in Q. rewrite Q. reflexivity.
  - apply put_nodup. exact N.
  - intros k I. apply put_keys in I. destruct I as [-> |I]; [unfold op_traits; simpl; tauto|apply K; exact I].
Qed.
Lemma oshape_entry : In (id_of (cap (h_name h)), oshape) (entries ns insuf outsuf sch).
Proof. apply (entry_http ns insuf outsuf sch h); [exact IH|]. unfold hentries. apply in_app_iff. right. left. reflexivity. Qed.
Lemma op_known k v : In (k, v) (sh_traits oshape) -> In k known_traits.
Proof.
  intros I. apply (in_map fst) in I. simpl in I. apply oshape_rest in I. unfold op_traits in I. unfold known_traits. simpl in I |- *. intuition.
Qed.
Lemma oshape_annos : exists b, traits_annos L shapes [] (sh_traits oshape) = Ok b /\ forall k v, In (k, v) b <-> action_anno_back h k v.
Proof.
  destruct oshape_rest as (_ & _ & _ & _ & G & N & _). destruct (action_traits_spec _ _ _ traits_ok) as (_ & K & _ & _ & GT & GP & _).
  exists (flat_map (anno_of L) (sh_traits oshape)). split; [apply traits_annos_eq; [exact op_known|exact N]|]. intros k v. rewrite (annos_in L _ _ _ N).
  pose proof (proj1 AO h IH) as HA. unfold action_anno_back. split.
  - intros (tv & E & I). pose proof (anno_owner L _ _ _ _ I) as _. apply anno_of_in in I. destruct I as [I NE].
    assert (OK : In (owner k) op_traits).
    { apply oshape_rest. apply (get_In _ _ _ N) in E. apply (in_map fst) in E. exact E. }
    unfold op_traits in OK. assert (O : owner k = "smithy.api#tags" \/ owner k = "smithy.api#paginated").
    { unfold owner in OK |- *. repeat match goal with |- context [k =?s ?x] => destruct (k =?s x) end; simpl in OK; auto; exfalso; intuition discriminate. }
    destruct O as [O|O]; rewrite O in *; rewrite G in E by discriminate; unfold raw_annos in I; cbn [String.eqb Ascii.eqb Bool.eqb] in I.
    + left. destruct I as [I|[]]. injection I as <- <-. rewrite GT in E. destruct (get "x_tags" (h_annos h)) as [w|] eqn:W; [|discriminate]. injection E as <-.
      rewrite strings_back, (join_split ",") in *. split; [reflexivity|]. split; [exact NE|]. apply (get_In _ _ _ HA). exact W.
    + right. destruct I as [I|[]]. injection I as <- <-. apply GP in E. destruct E as (w & l & W & P & ->). split; [reflexivity|]. exists w. split; [apply (get_In _ _ _ HA); exact W|].
      simpl as_obj. exists (t_text "inputToken" l), (t_text "outputToken" l), (t_text "pageSize" l), (t_text "items" l).
      repeat (split; [apply setting_text; [apply no_char_smem; reflexivity|exact P]|]). reflexivity.
  - intros [(-> & NE & I)|(-> & s & I & PB)].
    + exists (TArr (map TStr (split "," v))). change (owner "x_tags") with "smithy.api#tags". split.
      * rewrite G by discriminate. rewrite GT. apply (get_In _ _ _ HA) in I. rewrite I. reflexivity.
      * apply anno_of_in. split; [|exact NE]. unfold raw_annos. cbn [String.eqb Ascii.eqb Bool.eqb]. left. rewrite strings_back, (join_split ","). reflexivity.
    + change (owner "x_paginated") with "smithy.api#paginated". apply (get_In _ _ _ HA) in I.
      destruct (proj1 (proj2 (proj2 exportable)) h s IH) as (l0 & E0 & _); [apply (get_In _ _ _ HA); exact I|].
      assert (P : exists l, paginated_items (split "," s) [] = Ok l).
      { pose proof traits_ok as T. unfold action_traits in T. rewrite I in T. apply rbind_Ok in T. destruct T as (t2 & T & _). apply rbind_Ok in T. destruct T as (p & T & _).
        unfold paginated_trait in T. apply rbind_Ok in T. destruct T as (l & T & _). eauto. }
      destruct P as (l & P). exists (TObj l). split; [rewrite G by discriminate; apply GP; eauto|].
      assert (V : v = "inputToken=" +++ t_text "inputToken" l +++ ",outputToken=" +++ t_text "outputToken" l +++ ",pageSize=" +++ t_text "pageSize" l +++ ",items=" +++ t_text "items" l).
      { destruct PB as (x1 & x2 & x3 & x4 & S1 & S2 & S3 & S4 & ->).
        assert (U : forall k x, no_char "=" k -> setting_or s k x -> x = t_text k l).
        { intros k x HK [S|[-> S]].
          - destruct (items_get k _ _ _ P) as [(b1 & i & b2 & v' & r & E & E2 & GG & M)|[M GG]].
            + unfold t_text. rewrite GG. simpl. destruct S as (c1 & j & c2 & F & C & (r' & Q & A & B) & O).
              assert (SP : split "," s = c1 ++ j :: c2) by (rewrite F; apply (split_join ","); [destruct c1; discriminate|]; intros y J; apply no_char_smem; apply C; exact J).
              assert (SJ : exists r2, split "=" j = k :: x :: r2).
              { destruct (pair_split k x r' A B) as [P1 P2]. destruct Q as [-> | ->]; eauto. }
              destruct SJ as (r2 & SJ). rewrite SP in E.
              assert (LAST : forall (u1 u2 w1 w2 : list string) (i j : string), u1 ++ i :: u2 = w1 ++ j :: w2 -> ~ In i w2 -> ~ In j u2 -> (i = j -> True) -> length u1 = length w1 \/ In i w2 \/ In j u2).
              { clear. induction u1 as [|z u1 IH]; intros u2 w1 w2 i j E N1 N2 _; destruct w1 as [|y w1]; simpl in *; auto.
                - injection E as -> ->. right. right. apply in_app_iff. simpl. auto.
                - injection E as -> <-. right. left. apply in_app_iff. simpl. auto.
                - injection E as -> E. destruct (IH _ _ _ _ _ E N1 N2 (fun _ => Logic.I)) as [X|X]; [left; lia|auto]. }
              assert (N1 : ~ In i c2).
              { intros J. destruct (split_eq_pair _ _ _ _ E2) as (_ & _ & t & [X|X]); [exact (O _ _ J X)|]. apply (O i (v' +++ "=" +++ t) J). exact X. }
              assert (N2 : ~ In j b2) by (intros J; exact (M j x r2 J SJ)).
              destruct (LAST c1 c2 b1 b2 j i E N2 N1 (fun _ => Logic.I)) as [LE|[X|X]]; [|contradiction ..].
              assert (JI : j = i).
              { clear - E LE. revert b1 E LE. induction c1 as [|y c1 IH]; intros [|z b1] E LE; simpl in *; try lia; [injection E; auto|]. injection E as _ E. apply (IH b1 E). lia. }
              subst j. rewrite E2 in SJ. injection SJ as <- _. reflexivity.
            + destruct S as (c1 & j & c2 & F & C & (r' & Q & A & B) & O). exfalso.
              assert (SP : split "," s = c1 ++ j :: c2) by (rewrite F; apply (split_join ","); [destruct c1; discriminate|]; intros y J; apply no_char_smem; apply C; exact J).
              destruct (pair_split k x r' A B) as [P1 P2]. destruct Q as [-> | ->]; [apply (M (k +++ "=" +++ x) x []); [rewrite SP; apply in_app_iff; simpl; auto|exact P1]|].
              apply (M (k +++ "=" +++ x +++ "=" +++ r') x (split "=" r')); [rewrite SP; apply in_app_iff; simpl; auto|exact P2].
          - destruct (setting_text s l k HK P) as [T|[T _]]; [elim (S _ T)|symmetry; exact T]. }
        rewrite <- (U "inputToken" x1), <- (U "outputToken" x2), <- (U "pageSize" x3), <- (U "items" x4) by (first [assumption|apply no_char_smem; reflexivity]). reflexivity. }
      apply anno_of_in. split; [|subst v; discriminate]. unfold raw_annos. cbn [String.eqb Ascii.eqb Bool.eqb as_obj]. left. rewrite V. reflexivity.
Qed.
Lemma in_entry : h_inputs h <> [] -> get (id_of (cap (h_name h) +++ insuf)) shapes = Some (in_shape ns h).
Proof.
  intros N. apply get_entry. apply (entry_http ns insuf outsuf sch h); [exact IH|]. unfold hentries, io_entries. destruct (h_inputs h); [contradiction|]. left. reflexivity.
Qed.
Lemma out_entry : outputs_of h <> [] -> get (id_of (cap (h_name h) +++ outsuf)) shapes = Some (out_shape ns h).
Proof.
  intros N. apply get_entry. apply (entry_http ns insuf outsuf sch h); [exact IH|]. unfold hentries, io_entries. destruct (outputs_of h); [contradiction|].
  apply in_app_iff. left. apply in_app_iff. right. left. reflexivity.
Qed.
Lemma not_unit n : id_of n =?s "smithy.api#Unit" = false.
Proof. apply seqb_neq. apply (id_not_api ns n "Unit" HU). Qed.
Lemma inputs_read gs qs : read_inputs L shapes oshape = (gs, qs) -> ins_back L insuf h gs
  /\ ((exists p, In p (h_inputs h) /\ shows L p) -> exists l, without (fun i => ~ is_query i) (h_inputs h) l /\ qs = query_string (map param_name l))
  /\ ((forall p, In p (h_inputs h) -> ~ shows L p) -> qs = "").
Proof.
  unfold read_inputs. destruct oshape_rest as (_ & -> & _). simpl sh_input. destruct (h_inputs h) as [|i l] eqn:EI.
  - intros E. injection E as <- <-. split; [left; rewrite EI; auto|]. split; [intros (p & [] & _)|reflexivity].
  - rewrite not_unit. rewrite in_entry by (rewrite EI; discriminate). rewrite <- EI. assert (NE : h_inputs h <> []) by (rewrite EI; discriminate). clear EI i l.
    destruct (proj1 PO h IH) as (_ & ND & _ & NM). unfold in_shape, params_shape. simpl sh_members. rewrite (put_all_map param_name (input_member ns) (h_inputs h)) by exact ND.
    pose proof (inputs_show (h_inputs h) (fun p I => NM p (or_introl I))) as SH. cbn zeta in SH.
    destruct (negb _ || _) eqn:E.
    + intros X. injection X as <- <-. apply proj1 in SH. specialize (SH eq_refl). split; [|split].
      * right. left. split; [exact SH|]. rewrite map_map. apply Forall2_map_r. intros p I. apply input_read. apply (proj1 (proj2 RP) h p IH). auto.
      * intros _. destruct (query_names_eq (h_inputs h)) as (q & W & Q). exists q. rewrite Q. auto.
      * intros N. exfalso. destruct SH as (p & I & S). exact (N p I S).
    + intros X. injection X as <- <-.
      assert (NS : forall p, In p (h_inputs h) -> ~ shows L p) by (intros p I S; apply proj2 in SH; assert (Y : false = true) by (apply SH; eauto); discriminate).
      split; [|split; [intros (p & I & S); elim (NS p I S)|reflexivity]].
      right. right. split; [exact NE|]. split; [exact NS|]. rewrite user_name by (apply in_suf_hash; apply cap_no_hash). reflexivity.
Qed.
Lemma outputs_read e : h_expected h = Some e -> exists gs, read_outputs L shapes oshape = Ok gs /\ outs_back outsuf h (xp_outputs e) gs.
Proof.
  intros EE. assert (EO : outputs_of h = xp_outputs e) by (unfold outputs_of; rewrite EE; reflexivity). rewrite <- EO. clear EO EE.
  unfold read_outputs. destruct oshape_rest as (_ & _ & -> & _). simpl sh_output. destruct (outputs_of h) as [|i l] eqn:EI.
  - exists []. split; [reflexivity|]. left. auto.
  - rewrite not_unit. rewrite out_entry by (rewrite EI; discriminate). rewrite <- EI. assert (NE : outputs_of h <> []) by (rewrite EI; discriminate). clear EI i l.
    destruct (proj1 PO h IH) as (_ & _ & ND & NM). unfold out_shape, params_shape. simpl sh_members. rewrite (put_all_map param_name (output_member ns) (outputs_of h)) by exact ND.
    pose proof (outputs_show (outputs_of h) (fun p I => NM p (or_intror I))) as SH. cbn zeta in SH.
    destruct (negb _ || _) eqn:E; (eexists; split; [reflexivity|]).
    + apply proj1 in SH. specialize (SH eq_refl). right. left. split; [exact SH|]. rewrite map_map. apply Forall2_map_r. intros p I. apply output_read. apply (proj1 (proj2 RP) h p IH). auto.
    + right. right. split; [exact NE|]. split.
      * intros p I S. apply proj2 in SH. assert (Y : false = true) by (apply SH; eauto). discriminate.
      * rewrite user_name by (apply in_suf_hash; apply cap_no_hash). rewrite (out_name_back insuf outsuf _ HS) by apply cap_no_hash. reflexivity.
Qed.
Lemma errors_read : exists gs, read_errors L shapes (sh_errors oshape) = Ok gs /\ Forall2 (except_back L sch) (h_exceptions h) gs.
Proof.
  destruct oshape_rest as (_ & _ & _ & -> & _).
  assert (D : forall x, In x (h_exceptions h) -> declared sch (xc_type x)) by (intros x I; apply (ED h x IH I)).
  assert (LS : forall x, In x (h_exceptions h) -> exists z, last_of xs (xc_type x) = Some z).
  { intros x I. assert (J : In x xs) by (apply in_flat_map; eauto). clear - J. induction xs as [|y l IHl] using rev_ind; [destruct J|]. rewrite last_of_snoc.
    destruct (xc_type y =?s xc_type x) eqn:E; [eauto|]. apply in_app_iff in J. destruct J as [J|[->|[]]]; [auto|]. rewrite seqb_refl in E. discriminate. }
  induction (h_exceptions h) as [|x l IHl]; [exists []; split; [reflexivity|constructor]|].
  destruct (IHl (fun y I => D y (or_intror I)) (fun y I => LS y (or_intror I))) as (gs & E & F). clear IHl.
  destruct (D x (or_introl eq_refl)) as (td & I & EN). destruct (LS x (or_introl eq_refl)) as (z & EZ). destruct (type_shape_ok td I) as (s & ES).
  assert (X0 : exists s0, shape_of_type ns (td_spec td) (td_annos td) = Ok s0) by (unfold typedef_shape in ES; apply rbind_Ok in ES; destruct ES as (s0 & X & _); eauto).
  destruct X0 as (s0 & H0).
  cbn [map read_errors]. rewrite <- EN. rewrite (get_entry _ _ (entry_type ns insuf outsuf sch td I)). rewrite E. cbn [rbind]. eexists. split; [reflexivity|]. constructor; [|exact F].
  split; [simpl; rewrite EN; apply user_name; rewrite <- EN; apply identifier_no_hash; apply HP; exact I|]. split; [|split; [reflexivity|]].
  - exists z. split; [apply last_of_iff; exact EZ|]. simpl. unfold t_status. change (marks xs (td_name td) (tshape ns td)) with (fshape ns td xs). rewrite (final_http ns td s0 xs H0), EN, EZ. reflexivity.
  - exists td. split; [exact I|]. split; [exact EN|]. apply (final_doc_back ns td s0 xs H0).
Qed.
Lemma http_read : exists g, read_shape L shapes (id_of (cap (h_name h))) oshape = Ok (mkPart [] [g] [] (examples_of L (id_of (cap (h_name h))) oshape)) /\ http_back L insuf outsuf sch h g.
Proof.
  destruct (read_kind L shapes (id_of (cap (h_name h))) oshape) as (_ & _ & _ & _ & _ & _ & _ & _ & _ & RO).
  destruct oshape_rest as (T & _ & _ & _ & G & _). rewrite (RO T). destruct (action_traits_spec _ _ _ traits_ok) as (_ & _ & GD & GH & _).
  unfold read_op_shape, t_map. rewrite G, GH by discriminate. unfold http_trait at 1 2. set (d := [("uri", _); _] ++ _).
  assert (DM : t_text "method" d = h_method h) by reflexivity. assert (DU : t_text "uri" d = cut_query (sc_base sch +++ h_path h)) by reflexivity.
  rewrite DM. destruct (proj1 PO h IH) as (NM & _). apply seqb_neq in NM. rewrite NM. unfold read_http. destruct oshape_annos as (b & -> & QB). cbn [rbind].
  destruct (read_inputs L shapes oshape) as [gs qs] eqn:EI. apply inputs_read in EI. destruct EI as (I1 & I2 & I3). destruct expected_some as (e & EE).
  destruct (outputs_read e EE) as (os & -> & EO). cbn [rbind]. destruct errors_read as (xs' & -> & EXS). cbn [rbind]. eexists. split; [reflexivity|].
  split; [simpl; apply op_name_back; apply h_id|]. split; [reflexivity|]. split; [simpl; unfold doc_of, t_text; rewrite G, GD by discriminate; apply escape_back|].
  split; [exact DM|]. split; [exact QB|]. split; [exact I1|]. simpl h_path. rewrite DU. split; [|split; [|split; [|exact EXS]]].
  - intros S. destruct (I2 S) as (l & W & ->). exists (cut_query (sc_base sch +++ h_path h)), l. split; [apply cut_query_part|]. split; [exact W|].
    destruct l as [|q l]; [apply append_nil_r|]. unfold query_string. cbn [map]. rewrite map_map. reflexivity.
  - intros S. rewrite (I3 S), append_nil_r. apply cut_query_part.
  - exists e. eexists. split; [exact EE|]. split; [reflexivity|]. simpl. split; [|auto]. unfold status_back, t_status, d. rewrite EE.
    destruct (xp_status e =? 0)%Z eqn:Z; simpl; [left; split; [left; lia|reflexivity]|]. destruct (sl_status L (xp_status e) =? 0)%Z eqn:Y; [left|right]; lia.
Qed.
End Action.

Section Operation.
Context (o : opdef).
Hypothesis IO : In o (sc_operations sch).
Lemma operation_read : exists p, read_shape L shapes (id_of (cap (op_name o))) (oop_shape ns insuf outsuf o) = Ok (mkPart [] [] [p] []) /\ op_back o p.
Proof.
  destruct (read_kind L shapes (id_of (cap (op_name o))) (oop_shape ns insuf outsuf o)) as (_ & _ & _ & _ & _ & _ & _ & _ & _ & RO). rewrite (RO eq_refl).
  unfold read_op_shape. simpl sh_traits. unfold t_map. cbn [get String.eqb Ascii.eqb Bool.eqb t_text as_text]. unfold read_operation. simpl sh_traits.
  cbn [traits_annos]. unfold trait_anno. cbn [String.eqb Ascii.eqb Bool.eqb str_mem existsb orb rbind].
  assert (EI : op_inputs o <> [] -> get (id_of (cap (op_name o) +++ insuf)) shapes = Some (oin_shape ns o)).
  { intros N. apply get_entry. apply (entry_op ns insuf outsuf sch o); [exact IO|]. unfold oentries, io_entries. destruct (op_inputs o); [contradiction|]. left. reflexivity. }
  assert (EO : op_outputs o <> [] -> get (id_of (cap (op_name o) +++ outsuf)) shapes = Some (oout_shape ns o)).
  { intros N. apply get_entry. apply (entry_op ns insuf outsuf sch o); [exact IO|]. unfold oentries, io_entries. destruct (op_outputs o); [contradiction|].
    apply in_app_iff. left. apply in_app_iff. right. left. reflexivity. }
  destruct (proj2 PO o IO) as [N1 N2]. destruct (proj2 (proj2 RP) o IO) as [R1 R2].
  assert (XI : exists ins, match sh_input (oop_shape ns insuf outsuf o) with None => Ok [] | Some t => match get t shapes with None => Panic | Some i => Ok (map (fun km : string * member =>
                 mkField (fst km) "" [] (t_bool L "smithy.api#required" (mb_traits (snd km))) VNil (ts_of (shape_to_type (mb_target (snd km))))) (sh_members i)) end end = @Ok unit _ ins
     /\ Forall2 op_in_back (op_inputs o) ins).
  { simpl sh_input. destruct (op_inputs o) as [|i l] eqn:X; [exists []; split; [reflexivity|constructor]|]. rewrite EI by discriminate. eexists. split; [reflexivity|].
    unfold oin_shape. simpl sh_members. rewrite X, (put_all_map (@fd_name typespec) (op_in_member ns) (i :: l)) by exact N1. rewrite map_map. apply Forall2_map_r. intros f I.
    unfold op_in_back. cbn [fst snd]. unfold op_in_member. simpl mb_target. rewrite (reference_back ns HU) by (apply R1; exact I). reflexivity. }
  assert (XO : exists outs, match sh_output (oop_shape ns insuf outsuf o) with None => Ok [] | Some t => match get t shapes with None => Panic | Some i => Ok (map (fun km : string * member =>
                 mkOut (fst km) "" [] (ts_of (shape_to_type (mb_target (snd km))))) (sh_members i)) end end = @Ok unit _ outs
     /\ Forall2 op_out_back (op_outputs o) outs).
  { simpl sh_output. destruct (op_outputs o) as [|i l] eqn:X; [exists []; split; [reflexivity|constructor]|]. rewrite EO by discriminate. eexists. split; [reflexivity|].
    unfold oout_shape. simpl sh_members. rewrite X, (put_all_map Schema.oo_name (op_out_member ns) (i :: l)) by exact N2. rewrite map_map. apply Forall2_map_r. intros f I.
    unfold op_out_back. cbn [fst snd]. unfold op_out_member. simpl mb_target. rewrite (reference_back ns HU) by (apply R2; exact I). reflexivity. }
  destruct XI as (ins & -> & FI). destruct XO as (outs & -> & FO). cbn [rbind]. eexists. split; [reflexivity|].
  split; [simpl; apply op_name_back; apply HP; exact IO|]. split; [apply escape_back|]. split; [reflexivity|]. split; [exact FI|]. split; [exact FO|reflexivity].
Qed.
End Operation.
End Doc.
End Http.
