(** Proofs about type equivalence. *)
From Verif Require Import GoStr Outcome Value Schema Scalars Time Model SpecTime SpecModel ModelFacts MemberFacts
  Equiv SpecEquiv.

Lemma covered_iff l1 l2 : covered l1 l2 = true <-> incl l2 l1.
Proof.
  unfold covered, incl. rewrite forallb_forall. split; intros H x Hx.
  - apply str_mem_In. exact (H x Hx).
  - apply str_mem_In. exact (H x Hx).
Qed.
Lemma ptr_eq_sym {A} s (p q : option A) : ptr_eq s p q = ptr_eq s q p.
Proof. destruct p, q; reflexivity. Qed.
Lemma ptr_eq_refl {A} (p : option A) : ptr_eq true p p = true.
Proof. destruct p; reflexivity. Qed.
Lemma ptr_eq_trans {A} s12 s23 s13 (p q r : option A) :
  (s12 && s23 = true -> s13 = true) ->
  ptr_eq s12 p q = true -> ptr_eq s23 q r = true -> ptr_eq s13 p r = true.
Proof. intros Hs. destruct p, q, r; simpl; try discriminate; auto. intros -> ->. auto. Qed.
Lemma covered_sym l1 l2 : NoDup l1 -> NoDup l2 -> length l1 = length l2 ->
  covered l1 l2 = covered l2 l1.
Proof.
  intros H1 H2 Hl. apply eq_true_iff_eq. rewrite !covered_iff.
  split; intro H; apply NoDup_length_incl; auto; lia.
Qed.
Lemma covered_trans l1 l2 l3 : covered l1 l2 = true -> covered l2 l3 = true -> covered l1 l3 = true.
Proof. rewrite !covered_iff. intros H1 H2 x Hx. auto. Qed.
Lemma covered_refl l : covered l l = true.
Proof. apply covered_iff. intros x Hx. exact Hx. Qed.

Lemma band_true a b : band a b = Ok true <-> a = Ok true /\ b = Ok true.
Proof.
  unfold band. destruct a as [[|]| | |]; simpl; split; try discriminate; try tauto; intros [H ?]; discriminate.
Qed.

Section Facts.
Variable m : model.

Lemma names_refl rec n : equiv_names m rec n n = Ok true.
Proof. unfold equiv_names. now rewrite seqb_refl. Qed.

(** ** Reflexivity *)
Lemma equivalent_refl f ts : equivalent m (S f) true ts ts = Ok true.
Proof.
  cbn [equivalent]. unfold equiv_step. rewrite !seqb_refl, !ptr_eq_refl, !Nat.eqb_refl, !names_refl, !covered_refl.
  cbn [negb andb].
  repeat match goal with |- (if ?b then _ else _) = _ => destruct b; [reflexivity|] end. reflexivity.
Qed.

(** ** Symmetry, where nothing is listed twice *)
Definition all_once : Prop := forall n td, find_type m n = Some td -> listed_once (td_spec td).

Lemma names_sym r1 r2 n1 n2 :
  (forall td1 td2, find_type m n1 = Some td1 -> find_type m n2 = Some td2 ->
     r1 (td_spec td1) (td_spec td2) = r2 (td_spec td2) (td_spec td1)) ->
  equiv_names m r1 n1 n2 = equiv_names m r2 n2 n1.
Proof.
  intro H. unfold equiv_names. rewrite (seqb_sym n2 n1). destruct (n1 =?s n2); [reflexivity|].
  destruct (find_type m n1) as [td1|]; destruct (find_type m n2) as [td2|]; try reflexivity.
  now apply H.
Qed.

Lemma andb_guard (x y p q : bool) : x = y -> (x = true -> p = q) -> x && p = y && q.
Proof. intros -> H. destruct y; [simpl; auto|reflexivity]. Qed.

Lemma equivalent_sym : all_once -> forall f s a b,
  listed_once a -> listed_once b -> equivalent m f s a b = equivalent m f s b a.
Proof.
  intro Hall. induction f as [|f IH]; intros s a b Ha Hb; [reflexivity|].
  assert (Hn : forall n1 n2, equiv_names m (equivalent m f false) n1 n2 = equiv_names m (equivalent m f false) n2 n1).
  { intros n1 n2. apply names_sym. intros td1 td2 H1 H2. apply IH; eapply Hall; eassumption. }
  cbn [equivalent]. unfold equiv_step. rewrite (seqb_sym (ts_type b) (ts_type a)).
  destruct (ts_type a =?s ts_type b) eqn:Et; cbn [negb]; [|reflexivity].
  apply seqb_eq in Et. rewrite <- Et.
  destruct Ha as (Hva & Hea & Hua). destruct Hb as (Hvb & Heb & Hub).
  destruct (ts_type a =?s "String").
  { f_equal. rewrite (seqb_sym (ts_pattern b)), (ptr_eq_sym s (ts_minsize b)),
      (Nat.eqb_sym (length (vals b))), (seqb_sym (ts_reference b)).
    apply andb_guard; [reflexivity|]. intro H. rewrite !andb_true_iff in H. destruct H as [[_ Hl] _].
    apply Nat.eqb_eq in Hl. apply covered_sym; assumption. }
  destruct (ts_type a =?s "UUID"); [now rewrite (seqb_sym (ts_reference b))|].
  destruct (ts_type a =?s "Struct"); [now rewrite (Nat.eqb_sym (length (ts_fields b)))|].
  destruct (ts_type a =?s "Bytes"); [now rewrite (ptr_eq_sym s (ts_minsize b))|].
  destruct (ts_type a =?s "UnitValue"); [now rewrite (Hn (ts_unit b)), (Hn (ts_value b))|].
  destruct ((ts_type a =?s "Array") || (ts_type a =?s "Map"));
    [now rewrite (Hn (ts_items b)), (Hn (ts_keys b)), (ptr_eq_sym s (ts_minsize b))|].
  destruct (str_mem (ts_type a) numeric_types);
    [now rewrite (ptr_eq_sym s (ts_min b)), (ptr_eq_sym s (ts_max b))|].
  destruct (ts_type a =?s "Enum").
  { f_equal. rewrite (Nat.eqb_sym (length (ts_elements b))). apply andb_guard; [reflexivity|].
    intro Hl. apply Nat.eqb_eq in Hl. apply covered_sym; try assumption. unfold symbols. now rewrite !map_length. }
  destruct (ts_type a =?s "Union"); [|reflexivity].
  f_equal. rewrite (Nat.eqb_sym (length (ts_variants b))). apply andb_guard; [reflexivity|].
  intro Hl. apply Nat.eqb_eq in Hl. apply covered_sym; try assumption. unfold variant_types. now rewrite !map_length.
Qed.

(** ** Transitivity *)
Lemma names_trans (r : typespec -> typespec -> bresult) n1 n2 n3 :
  (forall a b c, r a b = Ok true -> r b c = Ok true -> r a c = Ok true) ->
  equiv_names m r n1 n2 = Ok true -> equiv_names m r n2 n3 = Ok true -> equiv_names m r n1 n3 = Ok true.
Proof.
  intro Hr. unfold equiv_names.
  destruct (n1 =?s n2) eqn:E12; [apply seqb_eq in E12; subst; auto|].
  destruct (n2 =?s n3) eqn:E23; [apply seqb_eq in E23; subst; rewrite E12; auto|].
  destruct (n1 =?s n3); [auto|].
  destruct (find_type m n1), (find_type m n2), (find_type m n3); try discriminate. apply Hr.
Qed.
Lemma band_trans a b a' b' a'' b'' :
  (a = Ok true -> a' = Ok true -> a'' = Ok true) -> (b = Ok true -> b' = Ok true -> b'' = Ok true) ->
  band a b = Ok true -> band a' b' = Ok true -> band a'' b'' = Ok true.
Proof. rewrite !band_true. tauto. Qed.
Lemma Ok_true b : @Ok unit bool b = Ok true <-> b = true.
Proof. split; [intro H; now injection H|now intros ->]. Qed.

Lemma equivalent_trans : forall f s12 s23 s13 a b c,
  (s12 && s23 = true -> s13 = true) ->
  equivalent m f s12 a b = Ok true -> equivalent m f s23 b c = Ok true -> equivalent m f s13 a c = Ok true.
Proof.
  induction f as [|f IH]; intros s12 s23 s13 a b c Hs; [discriminate|].
  assert (Hn : forall n1 n2 n3, equiv_names m (equivalent m f false) n1 n2 = Ok true ->
    equiv_names m (equivalent m f false) n2 n3 = Ok true -> equiv_names m (equivalent m f false) n1 n3 = Ok true).
  { intros n1 n2 n3. apply names_trans. intros x y z. apply IH. discriminate. }
  cbn [equivalent]. unfold equiv_step.
  destruct (ts_type a =?s ts_type b) eqn:E1; cbn [negb]; [|discriminate].
  apply seqb_eq in E1. rewrite <- E1.
  destruct (ts_type a =?s ts_type c) eqn:E2; cbn [negb]; [|discriminate].
  destruct (ts_type a =?s "String").
  { rewrite !Ok_true, !andb_true_iff, !seqb_eq, !Nat.eqb_eq.
    intros [[[[P1 M1] L1] R1] C1] [[[[P2 M2] L2] R2] C2].
    split; [|eapply covered_trans; eassumption]. split; [|congruence]. split; [|congruence].
    split; [congruence|]. eapply ptr_eq_trans; eassumption. }
  destruct (ts_type a =?s "UUID"); [rewrite !Ok_true, !seqb_eq; congruence|].
  destruct (ts_type a =?s "Struct"); [rewrite !Ok_true, !Nat.eqb_eq; congruence|].
  destruct (ts_type a =?s "Bytes"); [rewrite !Ok_true; now apply ptr_eq_trans|].
  destruct (ts_type a =?s "UnitValue"); [apply band_trans; apply Hn|].
  destruct ((ts_type a =?s "Array") || (ts_type a =?s "Map")).
  { destruct (ptr_eq s12 (ts_minsize a) (ts_minsize b)) eqn:P1; [|discriminate].
    destruct (ptr_eq s23 (ts_minsize b) (ts_minsize c)) eqn:P2; [|discriminate].
    rewrite (ptr_eq_trans s12 s23 s13 _ _ _ Hs P1 P2). apply band_trans; apply Hn. }
  destruct (str_mem (ts_type a) numeric_types).
  { rewrite !Ok_true, !andb_true_iff. intros [A1 A2] [B1 B2].
    split; eapply ptr_eq_trans; eassumption. }
  destruct (ts_type a =?s "Enum").
  { rewrite !Ok_true, !andb_true_iff, !Nat.eqb_eq. intros [A1 A2] [B1 B2].
    split; [congruence|eapply covered_trans; eassumption]. }
  destruct (ts_type a =?s "Union"); [|auto].
  rewrite !Ok_true, !andb_true_iff, !Nat.eqb_eq. intros [A1 A2] [B1 B2].
  split; [congruence|eapply covered_trans; eassumption].
Qed.

Lemma by_name_trans f n1 n2 n3 :
  equivalent_by_name m f n1 n2 = Ok true -> equivalent_by_name m f n2 n3 = Ok true ->
  equivalent_by_name m f n1 n3 = Ok true.
Proof.
  unfold equivalent_by_name. apply names_trans. intros a b c. apply equivalent_trans. discriminate.
Qed.
Lemma by_name_sym : all_once -> forall f n1 n2,
  equivalent_by_name m f n1 n2 = equivalent_by_name m f n2 n1.
Proof.
  intros H f n1 n2. apply names_sym. intros td1 td2 H1 H2. apply equivalent_sym; [exact H| |]; eapply H; eassumption.
Qed.

(** ** More fuel gives the same answer *)
Definition bfin (r : bresult) : Prop := r <> OutOfFuel.
Lemma band_ext a b a' b' : (bfin a -> a' = a) -> (bfin b -> b' = b) -> bfin (band a b) -> band a' b' = band a b.
Proof.
  unfold band, bfin. intros Ha Hb H. destruct a as [[|]| | |]; simpl in *; try (rewrite Ha by discriminate; simpl); auto.
  congruence.
Qed.
Lemma equivalent_more f : forall s a b, bfin (equivalent m f s a b) ->
  equivalent m (S f) s a b = equivalent m f s a b.
Proof.
  induction f as [|f IH]; intros s a b H; [now destruct H|].
  assert (Hn : forall n1 n2, bfin (equiv_names m (equivalent m f false) n1 n2) ->
     equiv_names m (equivalent m (S f) false) n1 n2 = equiv_names m (equivalent m f false) n1 n2).
  { intros n1 n2. unfold equiv_names. destruct (n1 =?s n2); [reflexivity|].
    destruct (find_type m n1), (find_type m n2); try reflexivity. apply IH. }
  change (equivalent m (S (S f)) s a b) with (equiv_step m (equivalent m (S f) false) s a b).
  change (equivalent m (S f) s a b) with (equiv_step m (equivalent m f false) s a b) in *.
  unfold equiv_step in *.
  destruct (negb (ts_type a =?s ts_type b)); [reflexivity|].
  destruct (ts_type a =?s "String"); [reflexivity|].
  destruct (ts_type a =?s "UUID"); [reflexivity|].
  destruct (ts_type a =?s "Struct"); [reflexivity|].
  destruct (ts_type a =?s "Bytes"); [reflexivity|].
  destruct (ts_type a =?s "UnitValue"); [apply band_ext; [apply Hn|apply Hn|exact H]|].
  destruct ((ts_type a =?s "Array") || (ts_type a =?s "Map")); [|reflexivity].
  destruct (ptr_eq s (ts_minsize a) (ts_minsize b)); [|reflexivity].
  apply band_ext; [apply Hn|apply Hn|exact H].
Qed.
Lemma equivalent_mono f f' s a b : f <= f' -> bfin (equivalent m f s a b) ->
  equivalent m f' s a b = equivalent m f s a b.
Proof.
  intros Hle H. induction Hle as [|f' Hle IH]; [reflexivity|].
  rewrite equivalent_more; [exact IH|]. now rewrite IH.
Qed.
Lemma by_name_mono f f' n1 n2 : f <= f' -> bfin (equivalent_by_name m f n1 n2) ->
  equivalent_by_name m f' n1 n2 = equivalent_by_name m f n1 n2.
Proof.
  intros Hle. unfold equivalent_by_name, equiv_names. destruct (n1 =?s n2); [reflexivity|].
  destruct (find_type m n1), (find_type m n2); try reflexivity. now apply equivalent_mono.
Qed.

Lemma step_true r s a b : equiv_step m r s a b = Ok true ->
  ts_type a = ts_type b
  /\ (ts_type a = "String" -> ts_pattern a = ts_pattern b /\ ptr_eq s (ts_minsize a) (ts_minsize b) = true
       /\ length (vals a) = length (vals b) /\ incl (vals b) (vals a))
  /\ (ts_type a = "UnitValue" -> equiv_names m r (ts_unit a) (ts_unit b) = Ok true
       /\ equiv_names m r (ts_value a) (ts_value b) = Ok true)
  /\ (In (ts_type a) ["Array"; "Map"] -> ptr_eq s (ts_minsize a) (ts_minsize b) = true
       /\ equiv_names m r (ts_items a) (ts_items b) = Ok true
       /\ equiv_names m r (ts_keys a) (ts_keys b) = Ok true)
  /\ (In (ts_type a) number_kinds -> ptr_eq s (ts_min a) (ts_min b) = true
       /\ ptr_eq s (ts_max a) (ts_max b) = true)
  /\ (ts_type a = "Enum" -> length (ts_elements a) = length (ts_elements b) /\ incl (symbols b) (symbols a)).
Proof.
  unfold equiv_step. destruct (ts_type a =?s ts_type b) eqn:E; cbn [negb]; [|discriminate].
  apply seqb_eq in E. intro H. split; [exact E|].
  split; [|split; [|split; [|split]]].
  - intro Ht. rewrite Ht in H. cbn in H. rewrite Ok_true, !andb_true_iff, !seqb_eq, Nat.eqb_eq, covered_iff in H. tauto.
  - intro Ht. rewrite Ht in H. cbn in H. now apply band_true in H.
  - intro Ht. destruct Ht as [Ht|[Ht|[]]]; rewrite <- Ht in H; cbn in H;
      (destruct (ptr_eq s (ts_minsize a) (ts_minsize b)); [|discriminate]); apply band_true in H; tauto.
  - intro Ht. repeat (destruct Ht as [Ht|Ht]; [rewrite <- Ht in H; cbn in H; rewrite Ok_true, andb_true_iff in H; exact H|]).
    destruct Ht.
  - intro Ht. rewrite Ht in H. cbn in H. rewrite Ok_true, andb_true_iff, Nat.eqb_eq, covered_iff in H. exact H.
Qed.
End Facts.

(** ** Equivalent types accept the same values, when the constraints not looked at agree *)
Section Values.
Variable X : ext.
Variable sch : schema.
Variable m : model.
Hypothesis Hm : new_model sch = Ok m.

(** the value set of a named type *)
Definition item_ok (n : string) (v : value) : Prop := exists ts, defines sch n ts /\ accepts X sch ts v.

Lemma any_defines : defines sch "Any" (ts_of "Any").
Proof. apply builtin_defines. simpl. tauto. Qed.

Definition name_le (n1 n2 : string) : Prop :=
  forall t, defines sch n1 t -> exists t', defines sch n2 t' /\ forall x, accepts X sch t x -> accepts X sch t' x.

(** everything the value set of [a] depends on carries over to [b] *)
Record carries (a b : typespec) : Prop := {
  ca_type : ts_type a = ts_type b;
  ca_min : In (ts_type a) ["String"; "Array"; "Map"] -> ts_minsize a = ts_minsize b;
  ca_max : ts_maxsize a = ts_maxsize b;
  ca_pattern : ts_type a = "String" -> ts_pattern a = ts_pattern b;
  ca_values : ts_type a = "String" -> incl (vals a) (vals b) /\ (ts_values a = None <-> ts_values b = None);
  ca_fields : ts_type a = "Struct" -> ts_fields a = ts_fields b;
  ca_enum : ts_type a = "Enum" -> incl (symbols a) (symbols b);
  ca_limits : In (ts_type a) number_kinds -> ts_min a = ts_min b /\ ts_max a = ts_max b;
  ca_items : In (ts_type a) ["Array"; "Map"] -> name_le (ts_items a) (ts_items b);
  ca_unit : ts_type a = "UnitValue" -> name_le (ts_unit a) (ts_unit b) /\ name_le (ts_value a) (ts_value b) }.

Lemma sizes_carry a b n : carries a b -> In (ts_type a) ["String"; "Array"; "Map"] ->
  sizes_ok a n -> sizes_ok b n.
Proof.
  intros C Ht H. unfold sizes_ok in *. now rewrite <- (ca_min a b C Ht), <- (ca_max a b C).
Qed.

Lemma items_any a b (Q : value -> Prop) : name_le (ts_items a) (ts_items b) ->
  (ts_items a = "Any" \/ exists t, ts_items a <> "Any" /\ defines sch (ts_items a) t /\ forall x, Q x -> accepts X sch t x) ->
  ts_items b = "Any" \/ exists t, ts_items b <> "Any" /\ defines sch (ts_items b) t /\ forall x, Q x -> accepts X sch t x.
Proof.
  intros Hn H. destruct (string_dec (ts_items b) "Any") as [Eb|Eb]; [now left|right].
  destruct H as [Ea|(t & _ & Hd & Hx)].
  - destruct (Hn (ts_of "Any")) as (t' & Hd & Hx); [rewrite Ea; apply any_defines|].
    exists t'. split; [exact Eb|]. split; [exact Hd|]. intros x _. apply Hx. now apply ac_any.
  - destruct (Hn t Hd) as (t' & Hd' & Hx'). exists t'. split; [exact Eb|]. split; [exact Hd'|]. auto.
Qed.

Lemma carry a b v : carries a b -> accepts X sch a v -> accepts X sch b v.
Proof.
  intros C H. pose proof (ca_type a b C) as Et.
  destruct H as [ts t Ht|ts s t Ht Hx Hr|ts v s Ht Hv Hs Hvs Hp|ts l Ht Hc Hf|ts ts' l Ht Hi Hd Hx Hs|ts l Ht Hi Hs
    |ts ts' l Ht Hi Hd Hx Hs|ts l Ht Hi Hs|ts d Ht Hw|ts b0 Ht|ts b0 Ht|ts v s Ht Hv Hn (e & He & Hes)|ts s Ht
    |ts v s Ht Hv Hs|ts a0 u d t1 t2 Ht Hsp Hl Hd Hd1 Ha1 Hd2 Ha2|ts v Ht|ts v Ht|ts ts' v [Hk Hd] Ha].
  - apply ac_time. congruence.
  - eapply ac_time_text; [congruence|eassumption|assumption].
  - assert (Hsz : sizes_ok b (String.length s)) by (eapply sizes_carry; [exact C|rewrite Ht; simpl; tauto|exact Hs]).
    destruct (ca_values ts b C Ht) as [Hi Hno].
    eapply ac_string; [congruence|exact Hv|exact Hsz| |].
    + intros vs Evs. destruct (ts_values ts) as [ws|] eqn:Ew.
      * specialize (Hvs ws eq_refl). unfold vals in Hi. rewrite Ew, Evs in Hi. apply Hi. exact Hvs.
      * destruct Hno as [Hno _]. rewrite (Hno eq_refl) in Evs. discriminate.
    + intro Evs. apply Hno in Evs. rewrite <- (ca_pattern ts b C Ht). auto.
  - apply ac_struct; [congruence| |].
    + unfold closed_object in *. now rewrite <- (ca_fields ts b C Ht).
    + rewrite <- (ca_fields ts b C Ht). exact Hf.
  - assert (Hsz : sizes_ok b (length l)) by (eapply sizes_carry; [exact C|rewrite Ht; simpl; tauto|exact Hs]).
    assert (Hin : In (ts_type ts) ["Array"; "Map"]) by (rewrite Ht; simpl; tauto).
    destruct (items_any ts b (fun x => In x l) (ca_items ts b C Hin)) as [Hb|(t & Hb & Hd' & Hx')].
    + right. now exists ts'.
    + now apply ac_array_any; [congruence| |].
    + eapply ac_array; [congruence|exact Hb|exact Hd'|exact Hx'|exact Hsz].
  - assert (Hsz : sizes_ok b (length l)) by (eapply sizes_carry; [exact C|rewrite Ht; simpl; tauto|exact Hs]).
    assert (Hin : In (ts_type ts) ["Array"; "Map"]) by (rewrite Ht; simpl; tauto).
    destruct (items_any ts b (fun x => In x l) (ca_items ts b C Hin)) as [Hb|(t & Hb & Hd' & Hx')].
    + now left.
    + now apply ac_array_any; [congruence| |].
    + eapply ac_array; [congruence|exact Hb|exact Hd'|exact Hx'|exact Hsz].
  - assert (Hsz : sizes_ok b (length l)) by (eapply sizes_carry; [exact C|rewrite Ht; simpl; tauto|exact Hs]).
    assert (Hin : In (ts_type ts) ["Array"; "Map"]) by (rewrite Ht; simpl; tauto).
    destruct (items_any ts b (fun x => exists k, In (k, x) l) (ca_items ts b C Hin)) as [Hb|(t & Hb & Hd' & Hx')].
    + right. exists ts'. split; [exact Hi|]. split; [exact Hd|]. intros x [k Hk]. exact (Hx k x Hk).
    + now apply ac_map_any; [congruence| |].
    + eapply ac_map; [congruence|exact Hb|exact Hd'|intros k x Hk; apply Hx'; now exists k|exact Hsz].
  - assert (Hsz : sizes_ok b (length l)) by (eapply sizes_carry; [exact C|rewrite Ht; simpl; tauto|exact Hs]).
    assert (Hin : In (ts_type ts) ["Array"; "Map"]) by (rewrite Ht; simpl; tauto).
    destruct (items_any ts b (fun x => exists k, In (k, x) l) (ca_items ts b C Hin)) as [Hb|(t & Hb & Hd' & Hx')].
    + now left.
    + now apply ac_map_any; [congruence| |].
    + eapply ac_map; [congruence|exact Hb|exact Hd'|intros k x Hk; apply Hx'; now exists k|exact Hsz].
  - destruct (ca_limits ts b C Ht) as [E1 E2]. apply ac_number; [congruence|]. now rewrite <- E1, <- E2.
  - apply ac_bool. congruence.
  - apply ac_pbool. congruence.
  - eapply ac_enum; [congruence|exact Hv|exact Hn|].
    assert (Hin : In s (symbols ts)) by (apply in_map_iff; exists e; auto).
    apply (ca_enum ts b C Ht) in Hin. apply in_map_iff in Hin. destruct Hin as (e' & H1 & H2). now exists e'.
  - apply ac_uuid. congruence.
  - eapply ac_uuid_text; [congruence|exact Hv|exact Hs].
  - destruct (ca_unit ts b C Ht) as [Nu Nv].
    destruct (Nv t1 Hd1) as (t1' & D1 & A1). destruct (Nu t2 Hd2) as (t2' & D2 & A2).
    eapply ac_unit; [congruence|exact Hsp|exact Hl|exact Hd|exact D1|auto|exact D2|auto].
  - apply ac_bytes. congruence.
  - apply ac_any. congruence.
  - apply (ac_ref X sch b ts' v); [|exact Ha]. split; [now rewrite <- Et|now rewrite <- Et].
Qed.

Lemma ptr_eq_val {A} s (p q : option A) : (s = true -> p = q) -> ptr_eq s p q = true -> p = q.
Proof. destruct p, q; simpl; intros H E; try discriminate; auto. Qed.

Lemma vals_none a b : length (vals a) = length (vals b) -> (ts_values a = Some [] <-> ts_values b = Some []) ->
  (ts_values a = None <-> ts_values b = None).
Proof.
  unfold vals. intros Hl [H1 H2].
  destruct (ts_values a) as [[|x l]|] eqn:Ea; destruct (ts_values b) as [[|y l']|] eqn:Eb; simpl in *;
    try discriminate; split; intro; try discriminate; try reflexivity; exfalso.
  - now specialize (H1 eq_refl).
  - now specialize (H2 eq_refl).
Qed.

Lemma equivalent_carries f : forall s a b,
  (s = true -> a = b) ->
  equivalent m f s a b = Ok true ->
  (forall c d, compared sch a b c d -> unseen_agree c d /\ listed_once d) ->
  carries a b /\ carries b a.
Proof.
  induction f as [|f IH]; intros s a b Hs H Hc; [discriminate|].
  cbn [equivalent] in H. apply step_true in H. destruct H as (Et & Hstr & Hun & Harr & Hnum & Hen).
  destruct (Hc a b (cp_here sch a b)) as [(Umax & Ufld & Uval) (Ov & Oe & _)].
  assert (Nm : forall n1 n2, parts a b n1 n2 -> equiv_names m (equivalent m f false) n1 n2 = Ok true ->
            name_le n1 n2 /\ name_le n2 n1).
  { intros n1 n2 Hp H. unfold equiv_names in H. destruct (n1 =?s n2) eqn:E.
    - apply seqb_eq in E. subst n2. split; intros t Ht; exists t; auto.
    - apply seqb_neq in E.
      destruct (find_type m n1) as [td1|] eqn:F1; [|discriminate].
      destruct (find_type m n2) as [td2|] eqn:F2; [|discriminate].
      assert (D1 : defines sch n1 (td_spec td1)) by (apply (find_type_defines sch m Hm); exists td1; auto).
      assert (D2 : defines sch n2 (td_spec td2)) by (apply (find_type_defines sch m Hm); exists td2; auto).
      destruct (IH false _ _ (fun e => False_ind _ (Bool.diff_false_true e)) H) as [C1 C2].
      { intros c d Hcd. apply Hc. eapply cp_part; eassumption. }
      split; intros t Ht.
      + rewrite (defines_fun sch m Hm n1 _ _ Ht D1). exists (td_spec td2). split; [exact D2|]. intro x. now apply carry.
      + rewrite (defines_fun sch m Hm n2 _ _ Ht D2). exists (td_spec td1). split; [exact D1|]. intro x. now apply carry. }
  assert (Pm : ptr_eq s (ts_minsize a) (ts_minsize b) = true -> ts_minsize a = ts_minsize b)
    by (apply ptr_eq_val; intro E; now rewrite (Hs E)).
  assert (Hmin : In (ts_type a) ["String"; "Array"; "Map"] -> ts_minsize a = ts_minsize b).
  { intros [Ht|Ht].
    - apply Pm. now apply Hstr.
    - apply Pm. now apply Harr. }
  assert (Hval : ts_type a = "String" -> incl (vals a) (vals b) /\ incl (vals b) (vals a) /\ (ts_values a = None <-> ts_values b = None)).
  { intro Ht. destruct (Hstr Ht) as (_ & _ & Hl & Hi). split; [|split; [exact Hi|now apply vals_none]].
    apply NoDup_length_incl; [exact Ov|fold (vals b); lia|exact Hi]. }
  assert (Hsym : ts_type a = "Enum" -> incl (symbols a) (symbols b) /\ incl (symbols b) (symbols a)).
  { intro Ht. destruct (Hen Ht) as (Hl & Hi). split; [|exact Hi].
    apply NoDup_length_incl; [exact Oe|unfold symbols; rewrite !map_length; lia|exact Hi]. }
  assert (Hlim : In (ts_type a) number_kinds -> ts_min a = ts_min b /\ ts_max a = ts_max b).
  { intro Ht. destruct (Hnum Ht) as [P1 P2]. split; eapply ptr_eq_val; try eassumption; intro E; now rewrite (Hs E). }
  assert (Hit : In (ts_type a) ["Array"; "Map"] -> name_le (ts_items a) (ts_items b) /\ name_le (ts_items b) (ts_items a)).
  { intro Ht. apply Nm; [now apply pt_items|now apply Harr]. }
  assert (Hu : ts_type a = "UnitValue" -> name_le (ts_unit a) (ts_unit b) /\ name_le (ts_unit b) (ts_unit a)).
  { intro Ht. apply Nm; [now apply pt_unit|now apply Hun]. }
  assert (Hv : ts_type a = "UnitValue" -> name_le (ts_value a) (ts_value b) /\ name_le (ts_value b) (ts_value a)).
  { intro Ht. apply Nm; [now apply pt_value|now apply Hun]. }
  split; constructor.
  - exact Et.
  - exact Hmin.
  - exact Umax.
  - intro Ht. now apply Hstr.
  - intro Ht. split; now apply Hval.
  - exact Ufld.
  - intro Ht. now apply Hsym.
  - exact Hlim.
  - intro Ht. now apply Hit.
  - intro Ht. split; [now apply Hu|now apply Hv].
  - now symmetry.
  - rewrite <- Et. intro Ht. symmetry. now apply Hmin.
  - now symmetry.
  - rewrite <- Et. intro Ht. symmetry. now apply Hstr.
  - rewrite <- Et. intro Ht. destruct (Hval Ht) as (H1 & H2 & H3). split; [exact H2|tauto].
  - rewrite <- Et. intro Ht. symmetry. now apply Ufld.
  - rewrite <- Et. intro Ht. now apply Hsym.
  - rewrite <- Et. intro Ht. destruct (Hlim Ht). split; congruence.
  - rewrite <- Et. intro Ht. now apply Hit.
  - rewrite <- Et. intro Ht. split; [now apply Hu|now apply Hv].
Qed.

Lemma equivalent_same_values f s a b :
  (s = true -> a = b) -> equivalent m f s a b = Ok true ->
  (forall c d, compared sch a b c d -> unseen_agree c d /\ listed_once d) ->
  forall v, accepts X sch a v <-> accepts X sch b v.
Proof.
  intros Hs H Hc v. destruct (equivalent_carries f s a b Hs H Hc) as [C1 C2].
  split; now apply carry.
Qed.
End Values.

(** ** Termination *)
Section Terminates.
Variable sch : schema.
Variable m : model.
Hypothesis Hm : new_model sch = Ok m.

Definition decides (n1 n2 : string) : Prop := exists f b, equivalent_by_name m f n1 n2 = Ok b.

Lemma decides_refl n : decides n n.
Proof. exists 0, true. apply names_refl. Qed.

Lemma band_decides (n1 n2 k1 k2 : string) : decides n1 n2 -> decides k1 k2 ->
  exists f b, band (equiv_names m (equivalent m f false) n1 n2) (equiv_names m (equivalent m f false) k1 k2) = Ok b.
Proof.
  intros (f1 & b1 & H1) (f2 & b2 & H2).
  pose (f := Nat.max f1 f2).
  assert (E1 : equivalent_by_name m f n1 n2 = Ok b1).
  { rewrite <- H1. apply by_name_mono; [unfold f; lia|]. unfold bfin. rewrite H1. discriminate. }
  assert (E2 : equivalent_by_name m f k1 k2 = Ok b2).
  { rewrite <- H2. apply by_name_mono; [unfold f; lia|]. unfold bfin. rewrite H2. discriminate. }
  unfold equivalent_by_name in *. exists f. rewrite E1, E2. unfold band. destruct b1; simpl; eauto.
Qed.

Lemma comparable_decides n1 : comparable sch n1 -> forall n2, comparable sch n2 -> decides n1 n2.
Proof.
  induction 1 as [n1 a Da Hai IHai Hak Hmi IHmi Hmk IHmk Hu IHu Hv IHv]. intros n2 H2.
  destruct H2 as [n2 b Db Hai' Hak' Hmi' Hmk' Hu' Hv'].
  destruct (string_dec n1 n2) as [->|Hne]; [apply decides_refl|].
  apply (find_type_defines sch m Hm) in Da, Db.
  destruct Da as (td1 & F1 & E1). destruct Db as (td2 & F2 & E2).
  assert (G : exists f r, equiv_step m (equivalent m f false) false a b = Ok r).
  { unfold equiv_step. destruct (ts_type a =?s ts_type b) eqn:Et; cbn [negb]; [|exists 0; eauto].
    apply seqb_eq in Et.
    destruct (ts_type a =?s "String"); [exists 0; eauto|].
    destruct (ts_type a =?s "UUID"); [exists 0; eauto|].
    destruct (ts_type a =?s "Struct"); [exists 0; eauto|].
    destruct (ts_type a =?s "Bytes"); [exists 0; eauto|].
    destruct (ts_type a =?s "UnitValue") eqn:Eu.
    { apply seqb_eq in Eu. apply band_decides.
      - apply IHu; [exact Eu|]. apply Hu'. congruence.
      - apply IHv; [exact Eu|]. apply Hv'. congruence. }
    destruct ((ts_type a =?s "Array") || (ts_type a =?s "Map")) eqn:Ea.
    { destruct (ptr_eq false (ts_minsize a) (ts_minsize b)); [|exists 0; eauto].
      apply orb_true_iff in Ea. rewrite !seqb_eq in Ea. destruct Ea as [Ea|Ea].
      - apply band_decides; [apply IHai; [exact Ea|apply Hai'; congruence]|].
        rewrite (Hak Ea), Hak' by congruence. apply decides_refl.
      - apply band_decides; [apply IHmi; [exact Ea|apply Hmi'; congruence]|].
        apply IHmk; [exact Ea|apply Hmk'; congruence]. }
    destruct (str_mem (ts_type a) numeric_types); [exists 0; eauto|].
    destruct (ts_type a =?s "Enum"); [exists 0; eauto|].
    destruct (ts_type a =?s "Union"); exists 0; eauto. }
  destruct G as (f & r & G). exists (S f), r. unfold equivalent_by_name, equiv_names.
  apply seqb_neq in Hne. rewrite Hne, F1, F2, E1, E2. exact G.
Qed.
End Terminates.
