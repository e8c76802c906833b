(** The types read from an OpenAPI document accept the data that its schemas describe. *)
From Coq Require Import Permutation.
From Verif Require Import GoStr Outcome Value Schema Scalars Misc MiscFacts Model SpecTime SpecModel ModelFacts ValidateFacts SpecPV SpecMisc SpecGen OpenApi
  OpenApiImport SpecOpenApi OpenApiFacts SpecImport SpecOpenData ImportFacts ImportRound ImportRead ImportData.

Section Read.
Context (X : ext) (all : list (string * oas)) (K : string -> Prop) (sch : schema).
Let any_number (_ : decimal) : Prop := True.
Let pointed (v : value) (s : string) : Prop := v = VPStr s.
Notation FITS := (fits X any_number pointed true all).
Hypothesis ONCE : keys_once all.
Hypothesis BASE : forall n, K n -> ~ In n builtin_names.
Hypothesis SAME : forall n a b, defines sch n a -> defines sch n b -> a = b.
(** what a name of K stands for *)
Hypothesis DEFS : forall n, K n -> exists d ts, In (n, d) all /\ defines sch n ts
  /\ ((convert_oas d = Ok ts /\ plain K d) \/ exists n' d', ref_to d n' /\ In (n', d') all /\ convert_oas d' = Ok ts /\ plain K d').

Lemma once_eq n a b : In (n, a) all -> In (n, b) all -> a = b.
Proof. intros A B. apply (get_In n a all ONCE) in A. apply (get_In n b all ONCE) in B. congruence. Qed.
Lemma no_target s : o_ref s = "" -> ~ has_target s.
Proof. intros E (n & NE & [Q|[Q _]]); rewrite E in Q; [discriminate|congruence]. Qed.
Lemma plain_ref s : plain K s -> o_ref s = "".
Proof. destruct 1; assumption. Qed.

(** a type spec and the schema it was read from *)
Definition made (ts : typespec) (s : oas) : Prop := (convert_oas s = Ok ts /\ plain K s) \/ exists n, ref_to s n /\ K n /\ ts = ts_of n.

Lemma item_made i : plain_item i -> exists its, convert_oas i = Ok its /\ plain K i /\ In (ts_type its) builtin_names /\ its = ts_of (ts_type its) /\ ts_type its <> "Any".
Proof.
  intros (R & [T|[(T & E & P & L & M)|(T & MN & MX)]]); rewrite convert_oas_eq; cbv zeta.
  - rewrite T. eexists. split; [reflexivity|]. split; [now apply pl_bool|]. split; [simpl; tauto|split; [reflexivity|discriminate]].
  - rewrite T. cbn [String.eqb Ascii.eqb Bool.eqb]. eexists. split; [reflexivity|].
    split; [destruct (in_dec string_dec (o_format i) formats) as [I|I]; [now apply pl_formatted|apply pl_text; auto; unfold sized, fits_int64; rewrite L, M; split; [lia|discriminate]]|].
    unfold convert_string. rewrite E, P, L, M. cbn. destruct (o_format i =?s "uuid"); [|destruct (o_format i =?s "date-time")]; (split; [simpl; tauto|split; [reflexivity|discriminate]]).
  - destruct T as [T|[T|[]]]; rewrite <- T; cbn [String.eqb Ascii.eqb Bool.eqb]; rewrite MN, MX; eexists; (split; [reflexivity|]);
      (split; [apply pl_number; [exact R|rewrite <- T; simpl; tauto]|]).
    + split; [simpl; tauto|split; [reflexivity|discriminate]].
    + unfold integer_name. destruct (o_format i =?s "int8"); [|destruct (o_format i =?s "int16"); [|destruct (o_format i =?s "int32")]]; (split; [simpl; tauto|split; [reflexivity|discriminate]]).
Qed.

Lemma number_in_kinds (ts : typespec) : In (ts_type ts) number_kinds -> In (ts_type ts) kinds.
Proof. unfold number_kinds, kinds. simpl. tauto. Qed.
Definition field_of (req : list string) (kp : string * oas) (f : fielddef) : Prop :=
  fd_name f = fst kp /\ fd_required f = contains_string req (fst kp) /\ made (fd_spec f) (snd kp).
Inductive shape (ts : typespec) (s : oas) : Prop :=
| sh_bool : o_type s = "boolean" -> ts_type ts = "Bool" -> shape ts s
| sh_text : o_type s = "string" -> ~ In (o_format s) formats -> ts_type ts = "String" -> ts_values ts = o_enum s -> ts_pattern ts = o_pattern s ->
    (o_enum s <> None -> o_pattern s = "") ->
    (forall n, sizes_ok ts n <-> (o_minlen s <= Z.of_nat n)%Z /\ forall z, o_maxlen s = Some z -> (Z.of_nat n <= z)%Z) -> shape ts s
| sh_enum vs : o_type s = "string" -> ~ In (o_format s) formats -> ts_type ts = "Enum" -> o_enum s = Some vs -> ~ In "" vs -> map ee_symbol (ts_elements ts) = vs ->
    o_pattern s = "" -> o_minlen s = 0%Z -> o_maxlen s = None -> shape ts s
| sh_uuid : o_type s = "string" -> o_format s = "uuid" -> o_enum s = None -> ts_type ts = "UUID" -> shape ts s
| sh_time : o_type s = "string" -> o_format s = "date-time" -> o_enum s = None -> ts_type ts = "Timestamp" -> shape ts s
| sh_number : In (o_type s) ["number"; "integer"] -> In (ts_type ts) number_kinds -> ts_min ts = o_min s -> ts_max ts = o_max s -> shape ts s
| sh_array i its : o_type s = "array" -> o_items s = Some i -> ts_type ts = "Array" -> no_sizes ts -> ts_items ts <> "Any" ->
    ((exists n, ref_to i n /\ K n /\ ts_items ts = n) \/ (convert_oas i = Ok its /\ plain K i /\ In (ts_items ts) builtin_names /\ its = ts_of (ts_items ts))) -> shape ts s
| sh_object ps : o_type s = "object" -> o_addl s = None -> ps = match o_props s with Some l => l | None => [] end -> keys_once ps ->
    (forall k, In k (o_required s) -> In k (map fst ps)) -> ts_type ts = "Struct" -> Forall2 (field_of (o_required s)) ps (ts_fields ts) -> shape ts s.

Lemma sizes_of s n : sized s ->
  at_least n (if (0 <? o_minlen s)%Z then Some (to_int64 (o_minlen s)) else None) /\ at_most n (option_map to_int64 (o_maxlen s))
  <-> (o_minlen s <= Z.of_nat n)%Z /\ forall z, o_maxlen s = Some z -> (Z.of_nat n <= z)%Z.
Proof.
  intros [A B]. assert (I : forall z, fits_int64 z -> to_int64 z = z).
  { intros z [L H]. unfold to_int64. rewrite Z.mod_small by lia. destruct (Z.ltb_spec z (2 ^ 63)); lia. }
  rewrite (I _ A). unfold at_least, at_most. destruct A as [A _].
  assert (Q : match option_map to_int64 (o_maxlen s) with Some z => (Z.of_nat n <= z)%Z | None => True end <-> forall z, o_maxlen s = Some z -> (Z.of_nat n <= z)%Z).
  { destruct (o_maxlen s) as [z|]; cbn [option_map]; [rewrite (I z (B z eq_refl)); split; [intros L w E; injection E as <-; exact L|auto]|split; [discriminate|auto]]. }
  rewrite Q. destruct (Z.ltb_spec 0 (o_minlen s)) as [L|L]; [reflexivity|]. split; intros [C D]; (split; [lia|exact D]) || (split; [exact Logic.I|exact D]).
Qed.
Lemma prop_made req kp f : ((exists n, ref_to (snd kp) n /\ K n) \/ plain K (snd kp)) -> convert_prop req kp = Ok f -> field_of req kp f.
Proof.
  intros H E. unfold convert_prop in E. apply rbind_Ok in E. destruct E as (ft & E & Q). injection Q as <-. split; [reflexivity|]. split; [reflexivity|]. cbn [fd_spec].
  destruct H as [(n & R & Kn)|P].
  - right. exists n. assert (T := R). apply type_ref_spec in T. destruct T as [T NE]. rewrite T in E. destruct (n =?s "") eqn:Z; [apply seqb_eq in Z; contradiction|]. injection E as <-. auto.
  - left. assert (T : oas_type_ref (snd kp) = "") by (unfold oas_type_ref; rewrite (plain_ref _ P); reflexivity). rewrite T in E. split; [exact E|exact P].
Qed.
Lemma not_formats f : ~ In f formats -> (f =?s "uuid") = false /\ (f =?s "date-time") = false.
Proof. intros H. split; apply seqb_neq; intros ->; apply H; simpl; tauto. Qed.
Lemma plain_shape s ts : plain K s -> convert_oas s = Ok ts -> shape ts s.
Proof.
  intros P C. rewrite convert_oas_eq in C. cbv zeta in C. destruct P as [s R T|s R T E F SZ|s R T E F|s vs R T E I F PT ML MX|s vs R T E I F PT SZ|s R T|s i R T E H|s R T A KO RQ H]; try rewrite T in C;
    cbn [String.eqb Ascii.eqb Bool.eqb orb] in C.
  - injection C as <-. now apply sh_bool.
  - injection C as <-. destruct (not_formats _ F) as [F1 F2]. unfold convert_string. rewrite E, F1, F2. cbn [forallb].
    apply sh_text; auto; [rewrite E; intros []; reflexivity|]. intros n. exact (sizes_of s n SZ).
  - injection C as <-. unfold convert_string. rewrite E. destruct F as [F|[F|[]]]; rewrite <- F; cbn; [apply sh_uuid|apply sh_time]; auto.
  - injection C as <-. unfold convert_string. rewrite E, (proj2 (forallb_symbols vs) I). eapply sh_enum; eauto; [exact (no_empty _ I)|apply symbols_map].
  - injection C as <-. destruct (not_formats _ F) as [F1 F2]. unfold convert_string. rewrite E, F1, F2. destruct (forallb is_symbol vs) eqn:S; [apply forallb_symbols in S; contradiction|].
    destruct vs as [|v vs]; [exfalso; apply I; constructor|]. apply sh_text; auto. intros n. exact (sizes_of s n SZ).
  - assert (T' := T). destruct T as [T|[T|[]]]; rewrite <- T in C; cbn [String.eqb Ascii.eqb Bool.eqb orb] in C; injection C as <-; apply sh_number; auto; [simpl; tauto|].
    cbn [ts_type ts_fill]. unfold integer_name. destruct (o_format s =?s "int8"); [|destruct (o_format s =?s "int16"); [|destruct (o_format s =?s "int32")]]; simpl; tauto.
  - rewrite E in C. destruct H as [(n & RT & Kn)|PI].
    + assert (NB := BASE n Kn). assert (T2 := RT). apply type_ref_spec in T2. destruct T2 as [T2 NE]. assert (O : o_ref i =?s "" = false). { apply seqb_neq. intros Z. exact (no_target i Z (ex_intro _ n RT)). }
      rewrite O in C. cbn [negb] in C. injection C as <-. eapply (sh_array _ _ i (ts_of "")); auto; [split; reflexivity| |].
      * cbn [ts_items ts_fill]. rewrite T2. intros Z. apply NB. rewrite Z. simpl. tauto.
      * left. exists n. cbn [ts_items ts_fill]. auto.
    + destruct (item_made i PI) as (its & CI & PL & B & Q & NA). rewrite (proj1 PI) in C. cbn [negb String.eqb] in C. rewrite CI in C. injection C as <-.
      eapply (sh_array _ _ i its); auto. split; reflexivity.
  - set (ps := match o_props s with Some l => l | None => [] end).
    assert (RQ' : forall k, In k (o_required s) -> In k (map fst ps)). { intros k I. destruct (RQ k I) as (l & L & J). unfold ps. rewrite L. exact J. }
    assert (KO' : keys_once ps). { unfold ps. destruct (o_props s) as [l|]; [exact (KO l eq_refl)|constructor]. }
    destruct (o_props s) as [l|] eqn:E.
    + apply rbind_Ok in C. destruct C as (fs & C & Q). injection Q as <-. eapply (sh_object _ _ ps); auto; [rewrite E; reflexivity|]. cbn [ts_fields ts_fill]. apply each_Ok in C. unfold ps.
      assert (H' : forall kp, In kp l -> (exists n, ref_to (snd kp) n /\ K n) \/ plain K (snd kp)) by (intros [k p] I; exact (H l k p eq_refl I)). clear - C H' BASE.
      induction C as [|a f l fs C F IH]; constructor; [apply prop_made; [apply H'; left; reflexivity|exact C]|apply IH; intros kp I; apply H'; right; exact I].
    + injection C as <-. eapply (sh_object _ _ ps); auto; [rewrite E; reflexivity|constructor].
Qed.

Lemma kinds_base n : In n kinds -> In n builtin_names.
Proof. unfold kinds, builtin_names. simpl. tauto. Qed.
Lemma made_named ts s : made ts s -> In (ts_type ts) kinds -> shape ts s /\ o_ref s = "".
Proof.
  intros [[C P]|(n & R & Kn & ->)] I; [split; [exact (plain_shape s ts P C)|exact (plain_ref s P)]|]. exfalso. apply (BASE n Kn). apply kinds_base. exact I.
Qed.
(** a name of K and the schema behind it *)
Lemma behind n ts : K n -> defines sch n ts -> exists d, In (n, d) all /\ ((convert_oas d = Ok ts /\ plain K d)
  \/ exists n' d', ref_to d n' /\ In (n', d') all /\ convert_oas d' = Ok ts /\ plain K d').
Proof. intros Kn D. destruct (DEFS n Kn) as (d & ts' & I & D' & H). rewrite (SAME n _ _ D D'). exists d. auto. Qed.
Lemma base_spec n ts : In n builtin_names -> defines sch n ts -> ts = ts_of n.
Proof. intros I D. apply (SAME n); [exact D|]. apply base_defines. exact I. Qed.

Lemma F2_left req ps fs k : Forall2 (field_of req) ps fs -> In k (map fst ps) -> exists p f, In (k, p) ps /\ In f fs /\ field_of req (k, p) f.
Proof.
  intros F I. apply in_map_iff in I. destruct I as ([k' p] & E & I). simpl in E. subst k'. exists p. induction F as [|a f ps fs A F IH]; [destruct I|].
  destruct I as [-> |I]; [exists f; simpl; auto|]. destruct (IH I) as (g & J & G & H). exists g. simpl. auto.
Qed.
Lemma F2_key req ps fs k p : Forall2 (field_of req) ps fs -> In (k, p) ps -> exists f, In f fs /\ field_of req (k, p) f.
Proof. intros F I. induction F as [|a f ps fs A F IH]; [destruct I|]. destruct I as [-> |I]; [exists f; simpl; auto|]. destruct (IH I) as (g & G & H). exists g. simpl. auto. Qed.
Lemma F2_right req ps fs f : Forall2 (field_of req) ps fs -> In f fs -> exists kp, In kp ps /\ field_of req kp f.
Proof. intros F I. induction F as [|a g ps fs A F IH]; [destruct I|]. destruct I as [-> |I]; [exists a; simpl; auto|]. destruct (IH I) as (b & B & H). exists b. simpl. auto. Qed.
Lemma accepted_fits ts v : accepts X sch ts v -> forall s, made ts s -> FITS s v.
Proof.
  (* a reference to a name of K *)
  assert (REF : forall n ts' v s, K n -> ref_to s n -> defines sch n ts' -> (forall d, made ts' d -> FITS d v) -> FITS s v).
  { intros n ts' w s Kn R D IH. destruct (behind n ts' Kn D) as (d & I & [CP|(n' & d' & R' & I' & CP)]).
    - eapply ft_ref; [exact R|exact I|]. apply IH. left. exact CP.
    - eapply ft_ref; [exact R|exact I|]. eapply ft_ref; [exact R'|exact I'|]. apply IH. left. exact CP. }
  intros A. induction A as [ts t T|ts w t T TT RT|ts v t T TX SZ VS PT|ts l T CO AC IH|ts ts' l T NA D AC IH SZ|ts l T TA SZ|ts ts' l T NA D AC IH SZ|ts l T TA SZ
    |ts d T W|ts b T|ts b T|ts v t T TX NE EL|ts t T|ts v t T TX U|ts a u d ts1 ts2 T SA LN XD D1 A1 IH1 D2 A2 IH2|ts v T|ts v T|ts ts' v RF AC IH]; intros s M;
    try (destruct (made_named ts s M) as [SH RN]; [first [exact (number_in_kinds ts T)|rewrite T; simpl; tauto]|]; assert (NT := no_target s RN);
         destruct SH; try congruence; try (exfalso; match goal with N : In (ts_type ?t) number_kinds, T : ts_type ?t = _ |- _ => rewrite T in N; simpl in N; intuition discriminate end)).
  - apply ft_time; assumption.
  - eapply ft_time_text; eauto; [reflexivity|]. intros vs E. congruence.
  - apply H5 in SZ. destruct SZ as [S1 S2]. eapply ft_text; eauto.
    + intros vs E. apply VS. congruence.
    + destruct (o_enum s) as [vs|] eqn:E; [left; apply H4; discriminate|]. rewrite <- H3. apply PT. congruence.
  - destruct CO as [CO RQ]. rename H5 into FF. apply ft_object; auto.
    + intros k I. destruct (F2_left (o_required s) ps (ts_fields ts) k FF (H3 k I)) as (p & f & IP & IF & (N & R & _)). cbn [fst] in N, R. rewrite <- N. apply RQ; [exact IF|].
      rewrite R. apply str_mem_In. exact I.
    + intros qs k p x E I J. assert (EQ : ps = qs) by (rewrite E in H1; exact H1). subst qs. destruct (F2_key _ _ _ k p FF I) as (f & IF & (N & _ & MD)). cbn [fst snd] in N, MD. apply (IH f x IF); [rewrite N; exact J|exact MD].
    + intros k x I NI. exfalso. destruct (CO k (in_map fst l (k, x) I)) as (f & IF & N). destruct (F2_right _ _ _ f FF IF) as (kp & IK & (N' & _ & _)).
      destruct (o_props s) as [qs|] eqn:E; [apply (NI qs eq_refl); rewrite <- N, N'; apply in_map; rewrite <- H1; exact IK|]. rewrite H1 in IK. destruct IK.
  - apply ft_array; auto. intros j x E I. assert (j = i) by congruence. subst j. destruct H4 as [(n & R & Kn & Q)|(C & P & B & Q)].
    + rewrite Q in D. apply (REF n ts'); auto.
    + rewrite (base_spec _ _ B D) in IH. rewrite <- Q in IH. apply (IH x I). left. auto.
  - destruct H as [H|[H|[]]]; [apply ft_number|apply ft_integer]; auto; try exact Logic.I; unfold within; rewrite <- H1, <- H2; exact W.
  - apply ft_bool; auto.
  - apply ft_pbool; auto.
  - destruct EL as (e & IE & EE). eapply ft_text; eauto; [rewrite H6; lia|rewrite H7; discriminate| |left; exact H5].
    intros ws E. assert (ws = vs) by congruence. subst ws. rewrite <- H4, <- EE. apply in_map. exact IE.
  - apply ft_uuid; auto. intros vs E. congruence.
  - eapply ft_uuid_text; eauto. intros vs E. congruence.
  - destruct RF as [NK D]. destruct M as [[C P]|(n & R & Kn & ->)].
    + exfalso. apply NK. destruct (plain_shape s ts P C); try (match goal with Q : ts_type ts = _ |- _ => rewrite Q; simpl; tauto end). now apply number_in_kinds.
    + exact (REF n ts' v s Kn R D IH).
Qed.
Lemma fits_accepted s v : FITS s v -> forall ts, (made ts s \/ exists n d, ref_to s n /\ In (n, d) all /\ convert_oas d = Ok ts /\ plain K d) -> accepts X sch ts v.
Proof.
  (* schemas without a reference *)
  assert (SH : forall s ts, ~ has_target s -> (made ts s \/ exists n d, ref_to s n /\ In (n, d) all /\ convert_oas d = Ok ts /\ plain K d) -> shape ts s).
  { intros s0 ts NT [[[C P]|(n & R & _)]|(n & d & R & _)]; [exact (plain_shape s0 ts P C)| |]; exfalso; apply NT; exists n; exact R. }
  intros F. induction F as [s n d v R I F IH|s b NT T|s b NT T|s v t NT T NF TX L1 L2 EN PT|s t NT T FM EN|s v t NT T FM TX U EN|s t NT T FM EN|s v w t NT T FM TM TT RT EN
    |s d NT T W|s d NT T WH W|s l NT T FI IH|s l NT T RQ FP IH EX]; intros ts M;
    try (specialize (SH s ts NT M); destruct SH; try congruence; try (exfalso; match goal with N : In (o_type s) _, T : o_type s = _ |- _ => rewrite T in N; simpl in N; intuition discriminate end);
         try (exfalso; match goal with N : ~ In (o_format s) _, T : o_format s = _ |- _ => apply N; rewrite T; simpl; tauto end)).
  - destruct M as [[[C P]|(n' & R' & Kn & ->)]|(n' & d' & R' & I' & C & P)].
    + exfalso. apply (no_target s (plain_ref s P)). exists n. exact R.
    + assert (n' = n) by (apply type_ref_spec in R; apply type_ref_spec in R'; destruct R, R'; congruence). subst n'.
      destruct (DEFS n Kn) as (d' & ts' & I' & D & H). assert (d' = d) by exact (once_eq n d' d I' I). subst d'.
      apply (ac_ref X sch (ts_of n) ts'); [split; [intros B; apply (BASE n Kn), kinds_base; exact B|exact D]|]. apply IH. destruct H as [CP|H]; [left; left; exact CP|right; exact H].
    + assert (n' = n) by (apply type_ref_spec in R; apply type_ref_spec in R'; destruct R, R'; congruence). subst n'. assert (d' = d) by exact (once_eq n d' d I' I). subst d'.
      apply IH. left. left. auto.
  - apply ac_bool. assumption.
  - apply ac_pbool. assumption.
  - eapply ac_string; eauto; [apply H5; auto|intros vs E; apply EN; congruence|]. intros E. rewrite H3. exact PT.
  - assert (IN : In t vs) by (apply EN; assumption). eapply ac_enum; eauto; [intros ->; contradiction|]. rewrite <- H4 in IN. apply in_map_iff in IN. destruct IN as (e & E & J). exists e. auto.
  - apply ac_uuid. assumption.
  - eapply ac_uuid_text; eauto.
  - apply ac_time. assumption.
  - unfold pointed in TM. subst v. eapply ac_time_text; eauto.
  - apply ac_number; [assumption|]. unfold within. rewrite H1, H2. exact W.
  - apply ac_number; [assumption|]. unfold within. rewrite H1, H2. exact W.
  - destruct H4 as [(n & R & Kn & Q)|(C & P & B & Q)].
    + destruct (DEFS n Kn) as (d & ts' & I & D & H4). rewrite <- Q in D. apply (ac_array X sch ts ts'); auto; [|apply no_sizes_ok; assumption].
      intros x J. assert (A := IH i x H0 J (ts_of n) (or_introl (or_intror (ex_intro _ n (conj R (conj Kn eq_refl)))))).
      inversion A; subst; cbn [ts_of ts_type] in *;
        try (exfalso; apply (BASE _ Kn); apply kinds_base; first [match goal with E : ts_items ts = _ |- _ => rewrite E; simpl; tauto end|now apply (number_in_kinds (ts_of (ts_items ts)))]).
      match goal with E : refers _ _ _ |- _ => destruct E as [_ E]; cbn [ts_of ts_type] in E; rewrite (SAME _ _ _ D E) end. assumption.
    + apply (ac_array X sch ts its); auto; [rewrite Q; now apply base_defines| |apply no_sizes_ok; assumption]. intros x J. apply (IH i x H0 J its). left. left. auto.
  - rename H5 into FF. apply ac_struct; [assumption| |].
    + split.
      * intros k I. apply in_map_iff in I. destruct I as ([k' x] & E & I). simpl in E. subst k'. destruct (in_dec string_dec k (map fst ps)) as [IN|NI].
        -- destruct (F2_left _ _ _ k FF IN) as (p & f & _ & IF & (N & _)). exists f. auto.
        -- exfalso. destruct (EX k x I) as [(a & Q & _)|[_ Q]]; [|congruence|discriminate]. intros qs Q. rewrite Q in H1. rewrite <- H1. exact NI.
      * intros f IF FR. destruct (F2_right _ _ _ f FF IF) as (kp & IK & (N & R & _)). rewrite N. apply RQ. rewrite R in FR. apply str_mem_In. exact FR.
    + intros f x IF I. destruct (F2_right _ _ _ f FF IF) as ([k p] & IK & (N & _ & MD)). cbn [fst snd] in *. rewrite N in I.
      destruct (o_props s) as [qs|] eqn:E; [|rewrite H1 in IK; destruct IK]. apply (IH qs k p x eq_refl); [rewrite <- H1; exact IK|exact I|]. left. exact MD.
Qed.
End Read.

(** ** Whole documents *)
Lemma types_def all ss tds n s : import_types all ss = Ok tds -> In (n, s) ss -> def_kept n s ->
  exists ts c, In (mkTD n c [] ts) tds /\ (if negb (oas_type_ref s =?s "") then match get (oas_type_ref s) all with Some d => convert_oas d | None => Panic end else convert_oas s) = Ok ts.
Proof.
  revert tds. induction ss as [|[n' s'] ss IH]; intros tds H I KD; [destruct I|]. cbn [import_types] in H. destruct I as [I|I].
  - injection I as -> ->. assert (KK := KD). apply kept_spec in KK. destruct KK as [V E]. rewrite V, E in H. apply rbind_Ok in H. destruct H as (ts & T & H). apply rbind_Ok in H.
    destruct H as (l & _ & Q). injection Q as <-. eexists ts, _. split; [left; reflexivity|exact T].
  - destruct (valid_sadl_name n' s' =?s ""); [exact (IH _ H I KD)|]. apply rbind_Ok in H. destruct H as (ts0 & _ & H). apply rbind_Ok in H. destruct H as (l & L & Q). injection Q as <-.
    destruct (IH _ L I KD) as (ts & c & J & T). exists ts, c. split; [right; exact J|exact T].
Qed.
Lemma read_data name i doc m K : keys_once (od_schemas doc) -> to_sadl name i doc = Ok m -> plain_defs (od_schemas doc) K ->
  forall X ctx n d v, K n -> In (n, d) (od_schemas doc) -> vwf v ->
  ((exists k, validate X m k ctx n v = Ok tt) <-> fits X (fun _ => True) (fun v s => v = VPStr s) true (od_schemas doc) d v).
Proof.
  intros ONCE TO PD X ctx n d v Kn ID W. set (all := od_schemas doc) in *. unfold to_sadl in TO. apply rbind_Ok in TO. destruct TO as (sch & IS & TO).
  destruct (new_model sch) as [m0| | |] eqn:NM; try discriminate. injection TO as ->.
  assert (TY : import_types all all = Ok (sc_types sch)).
  { unfold import_schema in IS. apply rbind_Ok in IS. destruct IS as (tds & TY & IS). apply rbind_Ok in IS. destruct IS as (hs & _ & Q). injection Q as <-. exact TY. }
  assert (CF := proj2 (proj2 (new_model_iff sch)) m NM). destruct CF as (_ & NB & _).
  assert (BASE : forall n, K n -> ~ In n builtin_names).
  { intros k Kk. destruct (PD k Kk) as (e & I & KD & _). destruct (types_def _ _ _ _ _ TY I KD) as (ts & c & J & _). exact (NB _ J). }
  assert (DEFS : forall n, K n -> exists d ts, In (n, d) all /\ defines sch n ts
    /\ ((convert_oas d = Ok ts /\ plain K d) \/ exists n' d', ref_to d n' /\ In (n', d') all /\ convert_oas d' = Ok ts /\ plain K d')).
  { intros k Kk. destruct (PD k Kk) as (e & I & KD & P). destruct (types_def _ _ _ _ _ TY I KD) as (ts & c & J & C). exists e, ts. split; [exact I|]. split; [eexists; split; [right; split; [exact J|reflexivity]|reflexivity]|].
    destruct P as [P|(n' & d' & R & I' & P)].
    - left. assert (T : oas_type_ref e = "") by (unfold oas_type_ref; rewrite (plain_ref K e P); reflexivity). rewrite T in C. auto.
    - right. exists n', d'. assert (R2 := R). apply type_ref_spec in R2. destruct R2 as [T NE]. rewrite T in C. destruct (n' =?s "") eqn:Z; [apply seqb_eq in Z; contradiction|].
      cbn [negb] in C. rewrite (proj2 (get_In n' d' all ONCE) I') in C. auto. }
  rewrite (validate_iff X sch m NM n v ctx W).
  assert (SAME := defines_fun sch m NM). destruct (DEFS n Kn) as (d' & ts & I' & D & H). assert (d' = d) by exact (once_eq all ONCE n d' d I' ID). subst d'.
  split.
  - intros (ts' & D' & A). rewrite (SAME n _ _ D' D) in A. destruct H as [CP|(n' & d' & R & I2 & CP)].
    + apply (accepted_fits X all K sch BASE SAME DEFS ts v A). left. exact CP.
    + eapply ft_ref; [exact R|exact I2|]. apply (accepted_fits X all K sch BASE SAME DEFS ts v A). left. exact CP.
  - intros F. exists ts. split; [exact D|]. apply (fits_accepted X all K sch ONCE BASE SAME DEFS d v F ts). destruct H as [CP|H]; [left; left; exact CP|right; exact H].
Qed.
