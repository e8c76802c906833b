(** Types written to an OpenAPI document and read back accept the same data. *)
From Coq Require Import Permutation.
From Verif Require Import GoStr Outcome Value Schema Scalars Misc MiscFacts Model SpecModel ModelFacts ValidateFacts SpecPV SpecMisc SpecGen OpenApi
  OpenApiImport SpecOpenApi OpenApiFacts OpenApiTotal SpecImport ImportFacts ImportRound ImportRead.

(** ** Type specs with the same data *)
Definition item_same (K : string -> Prop) (i j : string) : Prop :=
  (i = j /\ (In i ["Bool"; "Timestamp"; "Any"; "String"; "Bytes"] \/ K i)) \/ (In i number_kinds /\ In j number_kinds).
Inductive leaf (K : string -> Prop) (a b : typespec) : Prop :=
| lf_plain : ts_type b = ts_type a -> In (ts_type a) ["Bool"; "Timestamp"; "Any"; "UUID"; "Bytes"; "Union"] -> leaf K a b
| lf_num : In (ts_type a) number_kinds -> In (ts_type b) number_kinds -> ts_min a = ts_min b -> ts_max a = ts_max b -> leaf K a b
| lf_str : ts_type a = "String" -> ts_type b = "String" -> ts_pattern a = ts_pattern b -> ts_values a = ts_values b ->
    (forall n, sizes_ok a n <-> sizes_ok b n) -> leaf K a b
| lf_syms vs : ts_type a = "String" -> ts_type b = "Enum" -> ts_values a = Some vs -> no_sizes a -> ~ In "" vs ->
    map ee_symbol (ts_elements b) = vs -> leaf K a b
| lf_syms' vs : ts_type b = "String" -> ts_type a = "Enum" -> ts_values b = Some vs -> no_sizes b -> ~ In "" vs ->
    map ee_symbol (ts_elements a) = vs -> leaf K a b
| lf_enum : ts_type a = "Enum" -> ts_type b = "Enum" -> map ee_symbol (ts_elements a) = map ee_symbol (ts_elements b) -> leaf K a b
| lf_arr : ts_type a = "Array" -> ts_type b = "Array" -> no_sizes a -> no_sizes b -> item_same K (ts_items a) (ts_items b) -> leaf K a b
| lf_map : ts_type a = "Map" -> ts_type b = "Map" -> no_sizes a -> no_sizes b -> item_same K (ts_items a) (ts_items b) -> leaf K a b
| lf_ref : ts_type b = ts_type a -> K (ts_type a) -> leaf K a b.
Definition fsame (K : string -> Prop) (f g : fielddef) : Prop :=
  fd_name f = fd_name g /\ fd_required f = fd_required g /\ leaf K (fd_spec f) (fd_spec g).
Definition eqv (K : string -> Prop) (a b : typespec) : Prop :=
  leaf K a b \/ (ts_type a = "Struct" /\ ts_type b = "Struct" /\ perm2 (fsame K) (ts_fields a) (ts_fields b)).
(** fields may also name a type that is unfolded on the other side: [V1] and [V2] say which *)
Definition xleaf (K : string -> Prop) (V1 V2 : string -> typespec -> Prop) (a b : typespec) : Prop :=
  leaf K a b \/ (exists a', V1 (ts_type a) a' /\ leaf K a' b) \/ (exists b', V2 (ts_type b) b' /\ leaf K a b').
Definition xfsame K V1 V2 (f g : fielddef) : Prop :=
  fd_name f = fd_name g /\ fd_required f = fd_required g /\ xleaf K V1 V2 (fd_spec f) (fd_spec g).
Definition xeqv K V1 V2 (a b : typespec) : Prop :=
  xleaf K V1 V2 a b \/ (ts_type a = "Struct" /\ ts_type b = "Struct" /\ perm2 (xfsame K V1 V2) (ts_fields a) (ts_fields b)).
Lemma item_same_sym K i j : item_same K i j -> item_same K j i.
Proof. intros [[-> H]|[A B]]; [left; auto|right; auto]. Qed.
Lemma leaf_sym K a b : leaf K a b -> leaf K b a.
Proof.
  intros H. destruct H as [E I|A B E F|A B P V S|vs A B V N M E|vs A B V N M E|A B E|A B N M I|A B N M I|E I].
  - apply lf_plain; [auto|rewrite E; exact I].
  - apply lf_num; auto.
  - apply lf_str; auto. intros n. symmetry. apply S.
  - eapply lf_syms'; eassumption.
  - eapply lf_syms; eassumption.
  - apply lf_enum; auto.
  - apply lf_arr; auto. apply item_same_sym. exact I.
  - apply lf_map; auto. apply item_same_sym. exact I.
  - apply lf_ref; [auto|rewrite E; exact I].
Qed.
Lemma perm2_sym {A} (R : A -> A -> Prop) l l' : (forall a b, R a b -> R b a) -> perm2 R l l' -> perm2 R l' l.
Proof.
  intros S (k & P & F). assert (F' : Forall2 R l' k). { clear P. induction F; constructor; auto. }
  destruct (forall2_perm R _ _ _ F' (Permutation_sym P)) as (j & P2 & F2). exists j. auto.
Qed.
Lemma eqv_sym K a b : eqv K a b -> eqv K b a.
Proof.
  intros [H|(A & B & P)]; [left; apply leaf_sym; exact H|right]. split; [exact B|]. split; [exact A|]. eapply perm2_sym; [|exact P].
  intros f g (N & R & L). split; [auto|]. split; [auto|]. apply leaf_sym. exact L.
Qed.
Lemma xleaf_sym K V1 V2 a b : xleaf K V1 V2 a b -> xleaf K V2 V1 b a.
Proof. intros [H|[(a' & V & H)|(b' & V & H)]]; [left; apply leaf_sym; exact H|right; right; exists a'|right; left; exists b']; (split; [exact V|apply leaf_sym; exact H]). Qed.
Lemma perm2_flip {A B} (R : A -> B -> Prop) (R' : B -> A -> Prop) l l' : (forall a b, R a b -> R' b a) -> perm2 R l l' -> perm2 R' l' l.
Proof.
  intros S (k & P & F). assert (F' : Forall2 R' l' k). { clear P. induction F; constructor; auto. }
  destruct (forall2_perm R' _ _ _ F' (Permutation_sym P)) as (j & P2 & F2). exists j. auto.
Qed.
Lemma xeqv_sym K V1 V2 a b : xeqv K V1 V2 a b -> xeqv K V2 V1 b a.
Proof.
  intros [H|(A & B & P)]; [left; apply xleaf_sym; exact H|right]. split; [exact B|]. split; [exact A|]. eapply perm2_flip; [|exact P].
  intros f g (N & R & L). split; [auto|]. split; [auto|]. apply xleaf_sym. exact L.
Qed.
Lemma perm2_In_r {A B} (R : A -> B -> Prop) l l' b : perm2 R l l' -> In b l' -> exists a, In a l /\ R a b.
Proof.
  intros (k & P & F) I. assert (X : exists a, In a k /\ R a b).
  { clear P. induction F as [|x y k l' H F IH]; [destruct I|]. destruct I as [<-|I]; [exists x; simpl; auto|]. destruct (IH I) as (a & J & Q). exists a. simpl. auto. }
  destruct X as (a & J & Q). exists a. split; [exact (Permutation_in _ (Permutation_sym P) J)|exact Q].
Qed.
Lemma perm2_In_l {A B} (R : A -> B -> Prop) l l' a : perm2 R l l' -> In a l -> exists b, In b l' /\ R a b.
Proof.
  intros (k & P & F) I. apply (Permutation_in _ P) in I. clear P. induction F as [|x y k l' H F IH]; [destruct I|].
  destruct I as [<-|I]; [exists y; simpl; auto|]. destruct (IH I) as (b & J & Q). exists b. simpl. auto.
Qed.

Lemma no_sizes_ok ts n : no_sizes ts -> sizes_ok ts n.
Proof. intros [A B]. unfold sizes_ok, at_least, at_most. rewrite A, B. auto. Qed.
Ltac clash := exfalso; repeat match goal with
  | H : In ?t ?l, E : ?t = ?c |- _ => rewrite E in H
  | H : In ?t ?l, E : ts_type ?a = ts_type ?b, F : ts_type ?b = ?c |- _ => rewrite F in E
  end; simpl in *; intuition congruence.
Section Fwd.
Context (X : ext) (K : string -> Prop) (s1 s2 : schema) (V1 V2 : string -> typespec -> Prop).
Hypothesis F1 : forall n a b, defines s1 n a -> defines s1 n b -> a = b.
Hypothesis HK : forall n, K n -> ~ In n builtin_names /\ exists a b, defines s1 n a /\ defines s2 n b /\ xeqv K V1 V2 a b.
Hypothesis B1 : forall n a, In n builtin_names -> defines s1 n a -> a = ts_of n.
Hypothesis HV1 : forall n a, V1 n a -> ~ In n kinds /\ defines s1 n a.
Hypothesis HV2 : forall n a, V2 n a -> ~ In n kinds /\ defines s2 n a.
Lemma K_kind n : K n -> ~ In n kinds.
Proof. intros H I. apply (proj1 (HK n H)). unfold builtin_names, kinds in *. simpl in *. tauto. Qed.
Lemma base_defines s n : In n builtin_names -> defines s n (ts_of n).
Proof. intros I. exists (mkTD n "" [] (ts_of n)). split; [left; auto|reflexivity]. Qed.
Lemma item_defs i j a : item_same K i j -> defines s1 i a -> exists b, defines s2 j b /\ xeqv K V1 V2 a b.
Proof.
  intros [[-> [I|Ki]]|[I J]] D.
  - assert (IB : In j builtin_names) by (simpl in *; tauto). rewrite (B1 _ _ IB D). exists (ts_of j). split; [apply base_defines; exact IB|]. left. left.
    simpl in I. destruct I as [<-|[<-|[<-|[<-|[<-|[]]]]]]; [apply lf_plain; simpl; auto|apply lf_plain; simpl; auto|apply lf_plain; simpl; auto|apply lf_str; try reflexivity|apply lf_plain; simpl; tauto].
  - destruct (HK j Ki) as (_ & a' & b & D1 & D2 & E). exists b. split; [exact D2|]. rewrite (F1 _ _ _ D D1). exact E.
  - assert (IB : In i builtin_names) by (simpl in *; tauto). rewrite (B1 _ _ IB D). exists (ts_of j). split; [apply base_defines; simpl in *; tauto|].
    left. left. apply lf_num; [exact I|exact J|reflexivity|reflexivity].
Qed.
Lemma leaf_kind_out a b k : leaf K a b -> In (ts_type a) kinds -> K (ts_type a) -> k.
Proof. intros _ I H. exfalso. exact (K_kind _ H I). Qed.
Ltac kk := match goal with H : K (ts_type ?a), E : ts_type ?a = _ |- _ => exfalso; apply (K_kind _ H); rewrite E; simpl; tauto end.
Ltac nk := match goal with H : K (ts_type ?a), I : In (ts_type ?a) _ |- _ => exfalso; apply (K_kind _ H); simpl in I |- *; tauto end.
Ltac split_eqv V := destruct V as [[E I|A B E F|A B P V' S'|vs A B V' N M E|vs A B V' N M E|A B E|A B N M I|A B N M I|E I]|(A & B & P)]; try clash; try kk; try nk.
Definition direct (a b : typespec) : Prop :=
  leaf K a b \/ (ts_type a = "Struct" /\ ts_type b = "Struct" /\ perm2 (xfsame K V1 V2) (ts_fields a) (ts_fields b)).
Lemma lift ts v : In (ts_type ts) kinds -> (forall ts', direct ts ts' -> accepts X s2 ts' v) -> forall ts', xeqv K V1 V2 ts ts' -> accepts X s2 ts' v.
Proof.
  intros I H ts' [[L|[(a & V & _)|(b & V & L)]]|S].
  - apply H. left. exact L.
  - exfalso. exact (proj1 (HV1 _ _ V) I).
  - destruct (HV2 _ _ V) as [NK D]. eapply ac_ref; [split; [exact NK|exact D]|]. apply H. left. exact L.
  - apply H. right. exact S.
Qed.
Lemma ref_leaf ts ts1 v ts' : ~ In (ts_type ts) kinds -> defines s1 (ts_type ts) ts1 -> accepts X s1 ts1 v ->
  (forall ts', xeqv K V1 V2 ts1 ts' -> accepts X s2 ts' v) -> leaf K ts ts' -> accepts X s2 ts' v.
Proof.
  intros NK D A IH V. assert (Q : ts_type ts' = ts_type ts /\ (K (ts_type ts) \/ ts_type ts = "Union")).
  { destruct V as [E I|A' B E F|A' B P V' S'|vs A' B V' N M E|vs A' B V' N M E|A' B E|A' B N M I|A' B N M I|E I]; [| | | | | | | |auto].
    1: { split; [exact E|]. right. destruct (in_dec string_dec (ts_type ts) kinds) as [Y|Y]; [contradiction|]. simpl in I, Y. intuition congruence. }
    all: exfalso; apply NK; first [rewrite A'; simpl; tauto|rewrite B; simpl; tauto|simpl in A' |- *; tauto]. }
  destruct Q as [E [Kn|U]].
  - destruct (HK _ Kn) as (_ & a & b & D1 & D2 & EQ). eapply ac_ref; [split; [rewrite E; apply K_kind; exact Kn|rewrite E; exact D2]|].
    apply IH. rewrite (F1 _ _ _ D D1). exact EQ.
  - assert (UB : In "Union" builtin_names) by (simpl; tauto). rewrite U in D. assert (D1 := B1 _ _ UB D). subst ts1. eapply ac_ref; [split; [rewrite E; exact NK|rewrite E, U; apply base_defines; exact UB]|].
    apply IH. left. left. apply lf_plain; [reflexivity|simpl; tauto].
Qed.
Ltac kin := first [match goal with T : ts_type ?t = _ |- In (ts_type ?t) _ => rewrite T; simpl; tauto end|simpl in *; tauto].
Lemma xfwd ts v : accepts X s1 ts v -> forall ts', xeqv K V1 V2 ts ts' -> accepts X s2 ts' v.
Proof.
  intros H. induction H as [ts t T|ts s t T TT R|ts v s T TX SZ VS PT|ts l T [C1 C2] HF IH|ts ts1 l T NA D HI IH SZ|ts l T AN SZ|ts ts1 l T NA D HI IH SZ|ts l T AN SZ
    |ts d T W|ts b T|ts b T|ts v s T TX NE (e & Ie & Ee)|ts s T|ts v s T TX U|ts a u d ta tb T SM L XD D1 A1 IH1 D2 A2 IH2|ts v T|ts v T|ts ts1 v R A IH].
  - apply lift; [kin|]. intros ts' V. split_eqv V. apply ac_time. congruence.
  - apply lift; [kin|]. intros ts' V. split_eqv V. eapply ac_time_text; [congruence|exact TT|exact R].
  - apply lift; [kin|]. intros ts' V. split_eqv V.
    + eapply ac_string; [congruence|exact TX|apply S'; exact SZ|rewrite <- V'; exact VS|rewrite <- V', <- P; exact PT].
    + assert (Is := VS vs V'). eapply ac_enum; [congruence|exact TX|intros ->; contradiction|]. rewrite <- E in Is. apply in_map_iff in Is. destruct Is as (e & Q & J). exists e. auto.
  - apply lift; [kin|]. intros ts' V. split_eqv V. apply ac_struct; [exact B|split|].
    + intros k I. destruct (C1 k I) as (f & J & <-). destruct (perm2_In_l _ _ _ _ P J) as (g & G & N & _). exists g. auto.
    + intros g G RQ. destruct (perm2_In_r _ _ _ _ P G) as (f & J & N & Q & _). rewrite <- N. apply C2; [exact J|congruence].
    + intros g x G I. destruct (perm2_In_r _ _ _ _ P G) as (f & J & N & Q & LF). rewrite <- N in I. eapply IH; [exact J|exact I|]. left. exact LF.
  - apply lift; [kin|]. intros ts' V. split_eqv V. destruct (item_defs _ _ _ I D) as (b & D' & EB). assert (NA' : ts_items ts' <> "Any").
    { intros EA. apply NA. rewrite EA in I. destruct I as [[-> _]|[_ J]]; [reflexivity|]. simpl in J. intuition discriminate. }
    eapply ac_array; [exact B|exact NA'|exact D'| |apply no_sizes_ok; exact M]. intros x Ix. exact (IH x Ix _ EB).
  - apply lift; [kin|]. intros ts' V. split_eqv V. apply ac_array_any; [exact B| |apply no_sizes_ok; exact M]. rewrite AN in I. destruct I as [[<- _]|[J _]]; [reflexivity|]. simpl in J. intuition discriminate.
  - apply lift; [kin|]. intros ts' V. split_eqv V. destruct (item_defs _ _ _ I D) as (b & D' & EB). assert (NA' : ts_items ts' <> "Any").
    { intros EA. apply NA. rewrite EA in I. destruct I as [[-> _]|[_ J]]; [reflexivity|]. simpl in J. intuition discriminate. }
    eapply ac_map; [exact B|exact NA'|exact D'| |apply no_sizes_ok; exact M]. intros k x Ix. exact (IH k x Ix _ EB).
  - apply lift; [kin|]. intros ts' V. split_eqv V. apply ac_map_any; [exact B| |apply no_sizes_ok; exact M]. rewrite AN in I. destruct I as [[<- _]|[J _]]; [reflexivity|]. simpl in J. intuition discriminate.
  - apply lift; [kin|]. intros ts' V. split_eqv V. apply ac_number; [exact B|]. rewrite <- E, <- F. exact W.
  - apply lift; [kin|]. intros ts' V. split_eqv V. apply ac_bool. congruence.
  - apply lift; [kin|]. intros ts' V. split_eqv V. apply ac_pbool. congruence.
  - apply lift; [kin|]. intros ts' V. split_eqv V.
    + assert (Is : In s vs). { rewrite <- E. apply in_map_iff. exists e. auto. }
      eapply ac_string; [exact A|exact TX|apply no_sizes_ok; exact N| |]; rewrite V'; [intros vs' Q; injection Q as <-; exact Is|discriminate].
    + eapply ac_enum; [exact B|exact TX|exact NE|]. assert (Is : In s (map ee_symbol (ts_elements ts))) by (apply in_map_iff; exists e; auto). rewrite E in Is.
      apply in_map_iff in Is. destruct Is as (e' & Q & J). exists e'. auto.
  - apply lift; [kin|]. intros ts' V. split_eqv V. apply ac_uuid. congruence.
  - apply lift; [kin|]. intros ts' V. split_eqv V. eapply ac_uuid_text; [congruence|exact TX|exact U].
  - apply lift; [kin|]. intros ts' V. split_eqv V.
  - apply lift; [kin|]. intros ts' V. split_eqv V. apply ac_bytes. congruence.
  - apply lift; [kin|]. intros ts' V. split_eqv V. apply ac_any. congruence.
  - intros ts' V. destruct R as [NK D]. destruct V as [[V|[(a' & V & LF)|(b' & V & LF)]]|(A' & _ & _)]; [| | |exfalso; apply NK; rewrite A'; simpl; tauto].
    2: { apply IH. left. left. rewrite (F1 _ _ _ D (proj2 (HV1 _ _ V))). exact LF. }
    2: { destruct (HV2 _ _ V) as [NK2 D2]. eapply ac_ref; [split; [exact NK2|exact D2]|]. apply (ref_leaf ts ts1 v b' NK D A IH LF). }
    exact (ref_leaf ts ts1 v ts' NK D A IH V).
Qed.
End Fwd.
Lemma fwd (X : ext) (K : string -> Prop) s1 s2 : (forall n a b, defines s1 n a -> defines s1 n b -> a = b) ->
  (forall n, K n -> ~ In n builtin_names /\ exists a b, defines s1 n a /\ defines s2 n b /\ eqv K a b) ->
  (forall n a, In n builtin_names -> defines s1 n a -> a = ts_of n) ->
  forall ts v, accepts X s1 ts v -> forall ts', eqv K ts ts' -> accepts X s2 ts' v.
Proof.
  intros F1 HK B1 ts v A ts' V. set (no := fun (_ : string) (_ : typespec) => False).
  assert (EX : forall a b, eqv K a b -> xeqv K no no a b).
  { intros a b [L|(S1 & S2 & P)]; [left; left; exact L|right]. split; [exact S1|]. split; [exact S2|]. destruct P as (k & P & F). exists k. split; [exact P|]. clear P.
    induction F as [|f g l l' (N & R & L) F IH]; constructor; [|exact IH]. split; [exact N|]. split; [exact R|]. left. exact L. }
  refine (xfwd X K s1 s2 no no F1 _ B1 _ _ ts v A ts' (EX _ _ V)); [|intros ? ? []|intros ? ? []].
  intros n Kn. destruct (HK n Kn) as (NB & a & b & D1 & D2 & E). split; [exact NB|]. exists a, b. auto.
Qed.

(** ** What is written and read is such a type spec *)
Section Back.
Context (f64 : decimal -> decimal) (sch : schema) (m : model) (Hm : new_model sch = Ok m) (K : string -> Prop).
Notation schema_at := (oas_schema f64 m).
Hypothesis HK : data_types f64 sch K.
Lemma K_declared n : K n -> declared sch n /\ n <> "" /\ ~ In n builtin_names.
Proof.
  intros H. destruct (HK n H) as (NE & td & I & E & _). assert (D : declared sch n) by (exists td; auto). split; [exact D|]. split; [exact NE|]. exact (not_builtin sch m Hm n D).
Qed.
Lemma int64_back z : (- 2 ^ 63 <= z < 2 ^ 63)%Z -> to_int64 (to_uint64 z) = z.
Proof.
  intros H. unfold to_int64, to_uint64. rewrite Z.mod_mod by lia. destruct (Z_lt_dec z 0) as [L|L].
  - assert (E : (z mod 2 ^ 64 = z + 2 ^ 64)%Z) by (symmetry; apply (Z.mod_unique z (2 ^ 64) (-1)); lia). rewrite E. destruct (Z.ltb_spec (z + 2 ^ 64) (2 ^ 63)); lia.
  - rewrite Z.mod_small by lia. destruct (Z.ltb_spec z (2 ^ 63)); lia.
Qed.
Lemma sizes_back ts n : int64_sizes ts ->
  sizes_ok ts n <-> (at_least n (if (0 <? match ts_minsize ts with Some z => to_uint64 z | None => 0 end)%Z
     then Some (to_int64 (match ts_minsize ts with Some z => to_uint64 z | None => 0%Z end)) else None)
   /\ at_most n (option_map to_int64 (option_map to_uint64 (ts_maxsize ts)))).
Proof.
  intros H. unfold sizes_ok. assert (B : at_most n (option_map to_int64 (option_map to_uint64 (ts_maxsize ts))) <-> at_most n (ts_maxsize ts)).
  { destruct (ts_maxsize ts) as [z|] eqn:E; [|reflexivity]. cbn [option_map]. rewrite int64_back by (apply H; auto). reflexivity. }
  rewrite B. assert (A : at_least n (ts_minsize ts) <-> at_least n (if (0 <? match ts_minsize ts with Some z => to_uint64 z | None => 0 end)%Z
     then Some (to_int64 (match ts_minsize ts with Some z => to_uint64 z | None => 0%Z end)) else None)).
  { destruct (ts_minsize ts) as [z|] eqn:E; [|reflexivity]. destruct (Z.ltb_spec 0 (to_uint64 z)) as [L|L].
    - rewrite int64_back by (apply H; auto). reflexivity.
    - assert (Z0 : z = 0%Z). { assert (R := int64_back z (H z (or_introl E))). assert (P := Z.mod_pos_bound z (2 ^ 64) ltac:(lia)). unfold to_uint64 in *. assert (Q : (z mod 2 ^ 64 = 0)%Z) by lia. rewrite Q in R. symmetry. exact R. }
      subst z. simpl. split; [auto|]. intros _. lia. }
  rewrite A. reflexivity.
Qed.
Lemma bounds_exact ts : exact_bounds f64 ts -> option_map f64 (ts_min ts) = ts_min ts /\ option_map f64 (ts_max ts) = ts_max ts.
Proof.
  intros H. split; [destruct (ts_min ts) as [d|] eqn:E|destruct (ts_max ts) as [d|] eqn:E]; try reflexivity; cbn [option_map]; rewrite H by (rewrite E; auto); reflexivity.
Qed.
Lemma number_leaf ts ts' : In (ts_type ts) number_kinds -> exact_bounds f64 ts -> convert_oas (num_schema f64 ts) = Ok ts' -> leaf K ts ts' /\ ts_fields ts' = [].
Proof.
  intros I B H. destruct (bounds_exact ts B) as [B1 B2]. unfold num_schema in H. rewrite B1, B2 in H. assert (I' := I). simpl in I.
  repeat (destruct I as [I|I]; [rewrite <- I in H; cbn in H; injection H as <-; split; [apply lf_num; [exact I'|simpl; tauto|reflexivity|reflexivity]|reflexivity]|]). destruct I.
Qed.
Lemma string_leaf ts ts' : ts_type ts = "String" -> ts_values ts = None -> int64_sizes ts -> convert_oas (string_schema ts) = Ok ts' -> leaf K ts ts' /\ ts_fields ts' = [].
Proof.
  intros T V SZ H. rewrite convert_oas_eq in H. unfold string_schema in H. cbn [o_type] in H. change ("string" =?s "boolean") with false in H. change ("string" =?s "string") with true in H.
  cbv zeta iota in H. injection H as <-. unfold convert_string. cbn [o_enum o_format o_pattern o_minlen o_maxlen]. change ("" =?s "uuid") with false. change ("" =?s "date-time") with false. cbv iota.
  split; [|reflexivity]. apply lf_str; [exact T|reflexivity|reflexivity|exact V|]. intros n. rewrite (sizes_back ts n SZ). reflexivity.
Qed.
Lemma item_leaf fuel n td s ts' d : data_item sch K n -> find_type m n = Some td -> schema_at fuel (td_spec td) n = Ok s -> convert_oas (oas_array d s) = Ok ts' ->
  ts_type ts' = "Array" /\ no_sizes ts' /\ ts_fields ts' = [] /\ item_same K n (ts_items ts').
Proof.
  intros DI F S C. apply (find_type_spec _ _ Hm) in F. destruct fuel as [|fuel]; [discriminate|]. destruct DI as [I|(Kn & its & D & T)].
  - destruct F as [[_ ->]|[It E]].
    + cbn [td_spec] in S. assert (NIT : In n number_kinds \/ In n ["Bool"; "Timestamp"; "Any"; "String"]) by (simpl in *; tauto). destruct NIT as [J|J].
      * assert (J' := J). simpl in J. cbn [oas_schema ts_of ts_type] in S.
        repeat (destruct J as [J|J]; [subst n; cbn in S; first [discriminate S | injection S as <-; cbn in C; injection C as <-; repeat split; right; split; simpl; tauto]|]). destruct J.
      * cbn [oas_schema ts_of ts_type] in S. assert (J' := J). simpl in J.
        repeat (destruct J as [J|J]; [subst n; cbn in S; injection S as <-; cbn in C; injection C as <-; repeat split; left; split; [reflexivity|left; simpl in J' |- *; tauto]|]). destruct J.
    + exfalso. apply (not_builtin sch m Hm n); [exists td; auto|]. simpl in *. tauto.
  - assert (Q : td_spec td = its). { apply (defines_fun sch m Hm n); [exists td; auto|exact D]. } rewrite Q in S.
    destruct (K_declared n Kn) as (DN & NE & _).
    assert (SR : s = oas_ref n).
    { cbn [oas_schema] in S. destruct T as [T|T]; rewrite T in S; cbn in S; [|injection S as <-; reflexivity]. destruct (n =?s "") eqn:X; [apply seqb_eq in X; contradiction|]. cbn in S. injection S as <-. reflexivity. }
    subst s. rewrite convert_oas_eq in C. cbn -[oas_type_ref oas_ref] in C. rewrite ref_back in C. change (negb (o_ref (oas_ref n) =?s "")) with true in C. cbv iota in C. injection C as <-.
    repeat split. left. split; [reflexivity|right; exact Kn].
Qed.
Lemma field_leaf fuel ts s ts' : data_field f64 sch K ts -> schema_at fuel ts "" = Ok s ->
  (if negb (oas_type_ref s =?s "") then Ok (ts_of (oas_type_ref s)) else convert_oas s) = Ok ts' -> leaf K ts ts' /\ ts_fields ts' = [].
Proof.
  intros DF S C. destruct DF as [ts I|ts I B|ts T V SZ|ts T NS DI|ts Kn].
  - destruct fuel as [|fuel]; [discriminate|]. cbn [oas_schema] in S. assert (I' := I). simpl in I.
    repeat (destruct I as [I|I]; [rewrite <- I in S; cbn in S; injection S as <-; cbn in C; injection C as <-; split; [apply lf_plain; [rewrite <- I; reflexivity|simpl in *; tauto]|reflexivity]|]). destruct I.
  - destruct fuel as [|fuel]; [discriminate|]. assert (SN : s = num_schema f64 ts).
    { cbn [oas_schema] in S. simpl in I. repeat (destruct I as [I|I]; [rewrite <- I in S; cbn in S; injection S as <-; rewrite ?I; reflexivity|]). destruct I. }
    subst s. apply (number_leaf _ _ I B). assert (R : oas_type_ref (num_schema f64 ts) = "").
    { unfold num_schema. destruct (oas_numeric _) as [[a b] c]. reflexivity. } rewrite R in C. exact C.
  - destruct fuel as [|fuel]; [discriminate|]. cbn [oas_schema] in S. rewrite T in S. cbn -[string_schema] in S. injection S as <-. apply (string_leaf _ _ T V SZ). exact C.
  - destruct fuel as [|fuel]; [discriminate|]. cbn [oas_schema] in S. rewrite T in S. cbn in S. destruct (find_type m (ts_items ts)) as [td|] eqn:F; [|discriminate].
    apply rbind_Ok in S. destruct S as (i & S & Q). injection Q as <-. change (oas_type_ref (oas_array "" i)) with "" in C. cbn [negb String.eqb] in C.
    destruct (item_leaf _ _ _ _ _ _ DI F S C) as (T' & NS' & FS & IS). split; [|exact FS]. apply lf_arr; assumption.
  - destruct (K_declared _ Kn) as (_ & NE & NB). rewrite (reference_schema f64 m fuel ts "" s) in C; [| |exact S].
    + rewrite ref_back in C. destruct (ts_type ts =?s "") eqn:X; [apply seqb_eq in X; contradiction|]. cbn [negb] in C. injection C as <-. split; [apply lf_ref; [reflexivity|exact Kn]|reflexivity].
    + intros J. apply NB. simpl in *. tauto.
Qed.
Lemma forall2_fields (fs : list fielddef) ss req gs fuel : Forall2 (fun (f : fielddef) s => schema_at fuel (fd_spec f) "" = Ok s) fs ss -> (forall f, In f fs -> data_field f64 sch K (fd_spec f)) ->
  (forall f, In f fs -> contains_string req (fd_name f) = fd_required f) ->
  each (convert_prop req) (combine (map (@fd_name typespec) fs) ss) = Ok gs -> Forall2 (fun f g => fsame K f g /\ ts_fields (fd_spec g) = []) fs gs.
Proof.
  intros F. revert gs. induction F as [|f s fs ss S F IH]; intros gs DF RQ H; cbn [map combine each] in H; [injection H as <-; constructor|].
  apply rbind_Ok in H. destruct H as (g & G & H). apply rbind_Ok in H. destruct H as (rest & RS & E). injection E as <-. unfold convert_prop in G. cbn [fst snd] in G.
  apply rbind_Ok in G. destruct G as (ft & FT & E). injection E as <-. destruct (field_leaf _ _ _ _ (DF f (or_introl eq_refl)) S FT) as [LF FE].
  constructor; [|apply IH; [intros x I; apply DF; right; exact I|intros x I; apply RQ; right; exact I|exact RS]].
  split; [|exact FE]. split; [reflexivity|]. split; [|exact LF]. cbn [fd_required]. symmetry. apply RQ. left. reflexivity.
Qed.
Lemma required_once (fs : list fielddef) : NoDup (map (@fd_name typespec) fs) -> forall f, In f fs -> contains_string (map (@fd_name typespec) (filter fd_required fs)) (fd_name f) = fd_required f.
Proof.
  intros N f I. unfold contains_string. destruct (fd_required f) eqn:R.
  - apply str_mem_In. apply in_map. apply filter_In. auto.
  - destruct (str_mem (fd_name f) _) eqn:S; [|reflexivity]. apply str_mem_In in S. apply in_map_iff in S. destruct S as (g & E & J). apply filter_In in J. destruct J as [J RG].
    assert (g = f); [|congruence]. clear - N I J E. induction fs as [|x fs IH]; [destruct I|]. inversion N as [|? ? NI N']; subst. destruct I as [->|I], J as [->|J]; [reflexivity| | |exact (IH N' I J)].
    + exfalso. apply NI. rewrite <- E. apply in_map. exact J.
    + exfalso. apply NI. rewrite E. apply in_map. exact I.
Qed.
Lemma forallb_symbols l : forallb is_symbol l = true <-> Forall identifier l.
Proof. rewrite forallb_forall, Forall_forall. split; intros H x I; apply is_symbol_iff; exact (H x I). Qed.
Lemma no_empty l : Forall identifier l -> ~ In "" l.
Proof. intros H I. rewrite Forall_forall in H. specialize (H _ I). apply is_symbol_iff in H. discriminate. Qed.
Lemma symbols_map l : map ee_symbol (map (fun x => mkElt x "" []) l) = l.
Proof. rewrite map_map. apply map_id. Qed.
Definition gives_data (ts ts' : typespec) : Prop :=
  (leaf K ts ts' /\ ts_fields ts' = [])
  \/ (ts_type ts = "Struct" /\ ts_type ts' = "Struct" /\ Forall2 (fun f g => fsame K f g /\ ts_fields (fd_spec g) = []) (ts_fields ts) (ts_fields ts')).
Lemma def_back fuel td s ts' : data_def f64 sch K (td_spec td) -> export_typedef f64 m fuel td = Ok s -> convert_oas s = Ok ts' -> gives_data (td_spec td) ts'.
Proof.
  intros DD S C. unfold export_typedef in S. remember (td_spec td) as ts eqn:ETS. destruct DD as [ts T|ts I B|ts T V SZ|ts v l T V SY NS|ts v l T V NY SZ|ts I V|ts T SY|ts T NS DI|ts T ND DF].
  - rewrite T in S. cbn in S. injection S as <-. cbn in C. injection C as <-. left. split; [apply lf_plain; rewrite T; simpl; auto|reflexivity].
  - left. assert (SN : s = num_schema f64 ts).
    { simpl in I. repeat (destruct I as [I|I]; [rewrite <- I in S; cbn in S; injection S as <-; rewrite ?I; reflexivity|]). destruct I. }
    subst s. apply (number_leaf _ _ I B C).
  - left. rewrite T in S. cbn in S. unfold export_string in S. rewrite <- ETS in S. apply rbind_Ok in S. destruct S as (x & S & Q).
    destruct fuel as [|fuel]; [discriminate|]. cbn [oas_schema] in S. rewrite T in S. cbn -[string_schema] in S. injection S as <-. rewrite V in Q. injection Q as <-.
    destruct (string_leaf ts ts' T V SZ) as [A B]; [|auto]. rewrite <- C. reflexivity.
  - left. rewrite T in S. cbn in S. unfold export_string in S. rewrite <- ETS in S. apply rbind_Ok in S. destruct S as (x & S & Q).
    destruct fuel as [|fuel]; [discriminate|]. cbn [oas_schema] in S. rewrite T in S. cbn -[string_schema] in S. injection S as <-. rewrite V in Q. injection Q as <-.
    rewrite convert_oas_eq in C. unfold string_schema in C. cbn [o_type] in C. change ("string" =?s "boolean") with false in C. change ("string" =?s "string") with true in C. cbv zeta iota in C.
    injection C as <-. unfold convert_string. cbn [o_enum]. rewrite (proj2 (forallb_symbols (v :: l)) SY). split; [|reflexivity].
    eapply lf_syms; [exact T|reflexivity|exact V|exact NS|exact (no_empty _ SY)|]. exact (symbols_map (v :: l)).
  - left. rewrite T in S. cbn in S. unfold export_string in S. rewrite <- ETS in S. apply rbind_Ok in S. destruct S as (x & S & Q).
    destruct fuel as [|fuel]; [discriminate|]. cbn [oas_schema] in S. rewrite T in S. cbn -[string_schema] in S. injection S as <-. rewrite V in Q. injection Q as <-.
    rewrite convert_oas_eq in C. unfold string_schema in C. cbn [o_type] in C. change ("string" =?s "boolean") with false in C. change ("string" =?s "string") with true in C. cbv zeta iota in C.
    injection C as <-. unfold convert_string. cbn [o_enum o_format o_pattern o_minlen o_maxlen].
    destruct (forallb is_symbol (v :: l)) eqn:FB; [exfalso; apply NY; apply forallb_symbols; exact FB|]. change ("" =?s "uuid") with false. change ("" =?s "date-time") with false. cbv iota.
    split; [|reflexivity]. apply lf_str; [exact T|reflexivity|reflexivity|exact V|]. intros n. rewrite (sizes_back ts n SZ). reflexivity.
  - left. assert (I' := I). simpl in I. destruct I as [I|[I|[]]]; rewrite <- I in S; cbn in S; unfold export_string in S; rewrite <- ETS in S; apply rbind_Ok in S; destruct S as (x & S & Q);
      (destruct fuel as [|fuel]; [discriminate|]); cbn [oas_schema] in S; rewrite <- I in S; cbn in S; injection S as <-; rewrite V in Q; injection Q as <-; cbn in C; injection C as <-;
      (split; [apply lf_plain; [rewrite <- I; reflexivity|simpl in *; tauto]|reflexivity]).
  - left. rewrite T in S. cbn in S. injection S as <-. rewrite convert_oas_eq in C. unfold export_enum in C. cbn [o_type] in C. change ("string" =?s "boolean") with false in C. change ("string" =?s "string") with true in C.
    cbv zeta iota in C. injection C as <-. unfold convert_string. cbn [o_enum]. rewrite <- ETS, (proj2 (forallb_symbols _) SY). split; [|reflexivity].
    apply lf_enum; [exact T|reflexivity|]. cbn [ts_elements ts_fill]. symmetry. exact (symbols_map _).
  - left. rewrite T in S. cbn in S. unfold export_array in S. rewrite <- ETS in S. destruct (find_type m (ts_items ts)) as [itd|] eqn:F; [|discriminate].
    apply rbind_Ok in S. destruct S as (i & S & Q). injection Q as <-. destruct (item_leaf _ _ _ _ _ _ DI F S C) as (T' & NS' & FS & IS). split; [apply lf_arr; assumption|exact FS].
  - right. rewrite T in S. cbn in S. unfold export_struct in S. rewrite <- ETS in S. apply rbind_Ok in S. destruct S as ([req ps] & S & Q). injection Q as <-.
    destruct (fields_exact f64 m fuel (ts_fields ts) [] [] req ps) as (ss & F & E); [exact ND|exact S|]. simpl in E. subst ps.
    destruct (fields_required f64 m fuel _ _ _ _ _ S) as (RQ & _); [constructor|]. simpl in RQ. subst req.
    rewrite convert_oas_eq in C. cbn -[each convert_prop] in C. apply rbind_Ok in C. destruct C as (gs & G & E). injection E as <-. split; [exact T|]. split; [reflexivity|]. cbn [ts_fields ts_fill].
    eapply forall2_fields; [exact F|exact DF| |exact G]. apply required_once. exact ND.
Qed.
Lemma alike_leaf ts ts' : ts_alike ts ts' -> ts_fields ts = [] -> ts' = ts.
Proof. intros A E. destruct A as [t p v a b fs fs' el mn mx it k vs u w r P]. cbn [ts_fields] in E. subst fs. apply perm2_nil in P. subst fs'. reflexivity. Qed.
Lemma gives_alike ts ts' ts2 : gives_data ts ts' -> ts_alike ts' ts2 -> eqv K ts ts2.
Proof.
  intros [[L E]|(T & T' & F)] A; [left; rewrite (alike_leaf _ _ A E); exact L|]. right. split; [exact T|]. assert (T2 := ts_alike_type _ _ A). split; [congruence|].
  destruct A as [t p v a b fs fs' el mn mx it k vs u w r P]. cbn [ts_fields] in *. destruct P as (k' & P & F2).
  destruct (forall2_perm _ _ _ _ F P) as (j & PJ & FJ). exists j. split; [exact PJ|]. clear P PJ F T T' T2.
  revert fs' F2. induction FJ as [|f g j k' [S FE] FJ IH]; intros fs' F2; inversion F2 as [|? h ? fs2 (N & _ & _ & RQ & _ & TA) F3]; subst; constructor; [|apply IH; exact F3].
  destruct S as (N1 & R1 & L1). split; [congruence|]. split; [congruence|]. rewrite (alike_leaf _ _ TA FE). exact L1.
Qed.
Lemma types_In all ss tds n s : import_types all ss = Ok tds -> In (n, s) ss -> def_kept n s -> o_ref s = "" -> exists ts, convert_oas s = Ok ts /\ In (mkTD n (o_desc s) [] ts) tds.
Proof.
  revert tds. induction ss as [|[n' s'] ss IH]; intros tds H I KD R; [destruct I|]. cbn [import_types] in H. destruct I as [I|I].
  - injection I as -> ->. assert (KK := KD). apply kept_spec in KK. destruct KK as [V E]. rewrite V in H. assert (TR : oas_type_ref s = "") by (unfold oas_type_ref; rewrite R; reflexivity).
    rewrite TR, E in H. cbn [negb String.eqb] in H. apply rbind_Ok in H. destruct H as (ts & T & H). apply rbind_Ok in H. destruct H as (l & _ & Q). injection Q as <-.
    exists ts. split; [exact T|left; reflexivity].
  - destruct (valid_sadl_name n' s' =?s ""); [exact (IH _ H I KD R)|]. apply rbind_Ok in H. destruct H as (ts0 & _ & H). apply rbind_Ok in H. destruct H as (l & L & Q). injection Q as <-.
    destruct (IH _ L I KD R) as (ts & T & J). exists ts. split; [exact T|right; exact J].
Qed.
Lemma data_back fuel doc name i doc' m' : export_oas f64 m fuel = Ok doc -> doc_alike doc doc' -> to_sadl name i doc' = Ok m' ->
  forall X n v, K n -> (accepts X sch (ts_of n) v <-> accepts X (m_schema m') (ts_of n) v).
Proof.
  intros EX [AL _] TO X. destruct (export_schemas f64 sch m Hm fuel doc EX) as (SS & _ & KS).
  assert (SM : forall x, In x (od_schemas doc) -> o_ref (snd x) = "" /\ convertible (snd x)).
  { intros [n s] I. apply SS in I. destruct I as (td & _ & _ & T). exact (typedef_convertible f64 m _ _ _ T). }
  destruct (import_types_total (od_schemas doc) _ SM) as (tds & TD & _).
  destruct (import_types_alike _ _ _ KS AL TD) as (tds' & TD' & PT).
  assert (M' : new_model (m_schema m') = Ok m' /\ sc_types (m_schema m') = tds').
  { unfold to_sadl, import_schema in TO. rewrite TD' in TO. cbn [rbind] in TO. apply rbind_Ok in TO. destruct TO as (s' & S' & TO). apply rbind_Ok in S'. destruct S' as (hs & _ & Q). injection Q as <-.
    match type of TO with context [new_model ?x] => destruct (new_model x) as [m0| | |] eqn:NM; try discriminate end. injection TO as <-. rewrite (proj1 (new_model_inv _ _ NM)). auto. }
  destruct M' as [M' ET].
  assert (CORR : forall n, K n -> ~ In n builtin_names /\ exists a b, defines sch n a /\ defines (m_schema m') n b /\ eqv K a b).
  { intros n Kn. destruct (K_declared n Kn) as (_ & NE & NB). split; [exact NB|]. destruct (HK n Kn) as (_ & td & I & E & DD).
    destruct (export_schemas f64 sch m Hm fuel doc EX) as (_ & TOT & _). destruct (TOT td I) as (s & S). assert (IS : In (n, s) (od_schemas doc)) by (apply SS; eauto).
    assert (KD : def_kept n s).
    { split; [exact NE|]. split; [intros ->; apply NB; simpl; tauto|]. intros ->. exfalso. apply NB. simpl. tauto. }
    destruct (types_In _ _ _ _ _ TD IS KD (proj1 (typedef_convertible f64 m _ _ _ S))) as (ts & C & J). assert (G := def_back fuel td s ts DD S C).
    destruct (perm2_In_l _ _ _ _ PT J) as (td' & J' & (N' & _ & _ & A')). cbn [td_name td_spec] in N', A'.
    exists (td_spec td), (td_spec td'). split; [exists td; split; [right; auto|reflexivity]|]. split; [exists td'; split; [right; rewrite ET; auto|reflexivity]|]. exact (gives_alike _ _ _ G A'). }
  assert (BI : forall s0 m0, new_model s0 = Ok m0 -> forall n a, In n builtin_names -> defines s0 n a -> a = ts_of n).
  { intros s0 m0 M0 n a IB D. apply (defines_fun s0 m0 M0 n a (ts_of n) D). exists (mkTD n "" [] (ts_of n)). split; [left; auto|reflexivity]. }
  intros n v Kn. assert (REF : eqv K (ts_of n) (ts_of n)) by (left; apply lf_ref; [reflexivity|exact Kn]). split; intros A.
  - refine (fwd X K sch (m_schema m') (defines_fun sch m Hm) CORR (BI _ _ Hm) _ _ A _ REF).
  - refine (fwd X K (m_schema m') sch (defines_fun _ m' M') _ (BI _ _ M') _ _ A _ REF).
    intros k Kk. destruct (CORR k Kk) as (NB & a & b & D1 & D2 & E). split; [exact NB|]. exists b, a. split; [exact D2|]. split; [exact D1|]. apply eqv_sym. exact E.
Qed.
Lemma verdict_back fuel doc name i doc' m' : export_oas f64 m fuel = Ok doc -> doc_alike doc doc' -> to_sadl name i doc' = Ok m' ->
  forall X ctx ctx' n v, K n -> vwf v ->
  ((exists k, validate X m k ctx n v = Ok tt) <-> (exists k, validate X m' k ctx' n v = Ok tt)).
Proof.
  intros EX AL TO X ctx ctx' n v Kn W.
  assert (M' : new_model (m_schema m') = Ok m').
  { unfold to_sadl in TO. apply rbind_Ok in TO. destruct TO as (s' & _ & TO). destruct (new_model s') as [m0| | |] eqn:NM; try discriminate. injection TO as <-. rewrite (proj1 (new_model_inv _ _ NM)). exact NM. }
  assert (NK : ~ In n kinds). { intros I. apply (proj2 (proj2 (K_declared n Kn))). unfold kinds, builtin_names in *. simpl in *. tauto. }
  assert (VI : forall s0 m0, new_model s0 = Ok m0 -> forall c, (exists k, validate X m0 k c n v = Ok tt) <-> accepts X s0 (ts_of n) v).
  { intros s0 m0 M0 c. rewrite (validate_iff X s0 m0 M0 n v c W). split.
    - intros (ts & D & A). eapply ac_ref; [split; [exact NK|exact D]|exact A].
    - intros A. inversion A; subst; cbn [ts_of ts_type] in *; try (exfalso; apply NK; first [match goal with H : n = _ |- _ => rewrite H; simpl; tauto end|simpl in *; tauto]).
      match goal with H : refers _ _ ?t |- _ => destruct H as [_ D]; exists t; auto end. }
  rewrite (VI _ _ Hm ctx), (VI _ _ M' ctx'). exact (data_back fuel doc name i doc' m' EX AL TO X n v Kn).
Qed.
End Back.

(** ** The head of a document *)
Lemma head_kept name sch doc m' : NoDup (map fst (sc_annos sch)) -> to_sadl name (export_info sch) doc = Ok m' -> head_back name sch (m_schema m').
Proof.
  intros ND H. unfold to_sadl, import_schema in H. apply rbind_Ok in H. destruct H as (s & H & NM). apply rbind_Ok in H. destruct H as (tds & _ & H). apply rbind_Ok in H. destruct H as (hs & _ & Q). injection Q as <-.
  match type of NM with context [new_model ?x] => destruct (new_model x) as [m0| | |] eqn:M; try discriminate end. injection NM as <-. rewrite (proj1 (new_model_inv _ _ M)). clear M m0.
  unfold head_back. cbn [sc_name sc_comment sc_version sc_annos oi_title oi_desc oi_version export_info].
  split; [intros I; assert (I' := proj2 (is_symbol_iff _) I); rewrite I'; destruct (sc_name sch =?s "") eqn:E; [apply seqb_eq in E; rewrite E in I'; discriminate|]; auto|].
  split; [intros ->; auto|].
  split; [intros NE NI; destruct (sc_name sch =?s "") eqn:E; [apply seqb_eq in E; contradiction|]; destruct (is_symbol (sc_name sch)) eqn:S; [exfalso; apply NI, is_symbol_iff; exact S|]; auto|].
  split; [apply or_else_if|].
  intros k v. unfold import_annos, export_info. cbn [oi_openapi oi_servers oi_license]. unfold anno.
  assert (GS := fun w => get_In "x_server" w (sc_annos sch) ND). assert (GN := get_None "x_server" (sc_annos sch)).
  assert (L1 := fun w => get_In "x_license_name" w (sc_annos sch) ND). assert (L2 := fun w => get_In "x_license_url" w (sc_annos sch) ND).
  remember (sc_annos sch) as l eqn:El. clear El ND sch name doc tds hs.
  set (sv := match get "x_server" l with Some u => u | None => "http://localhost:8000" end).
  assert (SV : fold_left (fun a u => put "x_server" u a) ("http://localhost:8000" :: match get "x_server" l with Some u => [u] | None => [] end) [("x_openapi_version", "3.0.0")]
    = [("x_openapi_version", "3.0.0"); ("x_server", sv)]). { unfold sv. destruct (get "x_server" l); reflexivity. }
  rewrite SV. clear SV.
  assert (HS : In ("x_server", v) l \/ (v = "http://localhost:8000" /\ ~ In "x_server" (map fst l)) <-> v = sv).
  { unfold sv. rewrite <- GN, <- GS. destruct (get "x_server" l) as [u|]; split; [intros [Q|[_ Q]]; [congruence|discriminate]|intros ->; auto|intros [Q|[Q _]]; [discriminate|exact Q]|auto]. }
  assert (HN : forall g : option string, (v <> "" /\ g = Some v) <-> (v = match g with Some w => w | None => "" end /\ v <> "")).
  { intros [w|]; split; [intros [A B]; injection B as <-; auto|intros [-> B]; auto|intros [_ B]; discriminate|intros [-> B]; contradiction]. }
  assert (N1 := HN (get "x_license_name" l)). assert (N2 := HN (get "x_license_url" l)). clear HN. rewrite L1 in N1. rewrite L2 in N2.
  set (n := match get "x_license_name" l with Some w => w | None => "" end) in *. set (u := match get "x_license_url" l with Some w => w | None => "" end) in *.
  assert (R : (k = "x_openapi_version" /\ v = "3.0.0")
        \/ (k = "x_server" /\ (In (k, v) l \/ (v = "http://localhost:8000" /\ ~ In k (map fst l))))
        \/ (In k ["x_license_name"; "x_license_url"] /\ v <> "" /\ In (k, v) l)
      <-> (k = "x_openapi_version" /\ v = "3.0.0") \/ (k = "x_server" /\ v = sv) \/ (k = "x_license_name" /\ v = n /\ v <> "") \/ (k = "x_license_url" /\ v = u /\ v <> "")).
  { split.
    - intros [A|[[-> A]|[A B]]]; [auto|right; left; split; [reflexivity|apply HS; exact A]|]. right. right. destruct A as [<-|[<-|[]]]; [left|right]; split; auto; [apply N1|apply N2]; exact B.
    - intros [A|[[-> A]|[[-> A]|[-> A]]]]; [auto|right; left; split; [reflexivity|apply HS; exact A]|right; right|right; right]; (split; [simpl; auto|]); [apply N1|apply N2]; exact A. }
  rewrite R. clear R. clearbody n u sv. clear. destruct (n =?s "") eqn:E1, (u =?s "") eqn:E2; cbn [negb orb]; try rewrite E1; try rewrite E2; cbn [negb];
    first [apply seqb_eq in E1|apply seqb_neq in E1]; first [apply seqb_eq in E2|apply seqb_neq in E2]; cbn.
  - split; [intros [Q|[Q|[]]]; injection Q as <- <-; auto|]. intros [[-> ->]|[[-> ->]|[(-> & A & B)|(-> & A & B)]]]; [auto|auto|congruence|congruence].
  - split; [intros [Q|[Q|[Q|[]]]]; injection Q as <- <-; auto 6|]. intros [[-> ->]|[[-> ->]|[(-> & A & B)|(-> & -> & B)]]]; [auto|auto|congruence|auto].
  - split; [intros [Q|[Q|[Q|[]]]]; injection Q as <- <-; auto 6|]. intros [[-> ->]|[[-> ->]|[(-> & -> & B)|(-> & A & B)]]]; [auto|auto|auto|congruence].
  - split; [intros [Q|[Q|[Q|[Q|[]]]]]; injection Q as <- <-; auto 6|]. intros [[-> ->]|[[-> ->]|[(-> & -> & B)|(-> & -> & B)]]]; auto 6.
Qed.
