(** The generated Go file of a server: text, imports and errors. *)
From Verif Require Import GoStr Outcome Value Schema Scalars Model Misc Time Generator Golang GoModel GoServer SpecTime SpecMisc SpecModel SpecPV SpecTrace SpecGo
  SpecGoServer ModelFacts PVFacts TraceFacts TraceText GoModelFacts GoText TraceFill.

(** ** Literals *)
Lemma hexdigit_hex n : n < 16 -> hex (hexdigit n) n.
Proof.
  intros L. unfold hexdigit. destruct (n <? 10)%nat eqn:E.
  - apply Nat.ltb_lt in E. apply hx_digit; [exact E|]. rewrite nat_ascii_embedding; lia.
  - apply Nat.ltb_ge in E. apply hx_letter; [lia|]. rewrite nat_ascii_embedding; lia.
Qed.
Definition quote_ok (c : ascii) : Prop := forall t s, literal t s -> literal (quote_char c +++ t) (String c s).
Lemma quote_char_ok c : quote_ok c.
Proof.
  intros t s L. unfold quote_char. destruct (Ascii.eqb c """") eqn:E1.
  { apply Ascii.eqb_eq in E1. subst c. apply (lt_escape """" """"); [cbn; tauto|exact L]. }
  destruct (Ascii.eqb c "\") eqn:E2.
  { apply Ascii.eqb_eq in E2. subst c. apply (lt_escape "\" "\"); [cbn; tauto|exact L]. }
  apply Ascii.eqb_neq in E1, E2.
  assert (B : nat_of_ascii c < 256) by apply nat_ascii_bounded.
  assert (X : forall n, nat_of_ascii c = n -> n <> 10 -> literal ((if ((n <? 32) || (n =? 127))%nat then
      "\x" +++ String (hexdigit (n / 16)) (String (hexdigit (n mod 16)) "") else String c "") +++ t) (String c s)).
  { intros n Hn N10. destruct ((n <? 32) || (n =? 127))%nat.
    - change (("\x" +++ String (hexdigit (n / 16)) (String (hexdigit (n mod 16)) "")) +++ t) with ("\x" +++ String (hexdigit (n / 16)) (String (hexdigit (n mod 16)) t)).
      apply lt_byte with (i := n / 16) (j := n mod 16); [apply hexdigit_hex; apply Nat.div_lt_upper_bound; lia|apply hexdigit_hex; apply Nat.mod_upper_bound; lia| |exact L].
      rewrite Hn. rewrite (Nat.div_mod n 16) at 1 by lia. lia.
    - apply lt_char; [exact E1|exact E2|congruence|exact L]. }
  cbv zeta.
  assert (Y : forall k e, nat_of_ascii c = k -> In (e, k) escapes -> literal (String "\" (String e "") +++ t) (String c s)).
  { intros k e Hk I. apply (lt_escape e c); [rewrite Hk; exact I|exact L]. }
  destruct (nat_of_ascii c) as [|n] eqn:Hn; [exact (X 0 eq_refl ltac:(lia))|].
  destruct n as [|[|[|[|[|[|[|[|[|[|[|[|[|n]]]]]]]]]]]]];
    try (refine (Y _ _ eq_refl _); cbn; tauto); refine (X _ eq_refl _); lia.
Qed.
Lemma quote_literal s : literal (quote_chars s) s.
Proof. induction s as [|c s IH]; [constructor|]. cbn [quote_chars]. apply quote_char_ok. exact IH. Qed.
Lemma quote_text s : go_quote s = literal_text (quote_chars s). Proof. reflexivity. Qed.
(** a literal stands for one string *)
Lemma hex_fun c i j : hex c i -> hex c j -> i = j.
Proof. intros A B. destruct A as [c n L A|c n L A], B as [c m M B|c m M B]; lia. Qed.
Lemma literal_fun t s : literal t s -> forall s', literal t s' -> s = s'.
Proof.
  induction 1 as [|c t s N1 N2 N3 L IH|c d t s I L IH|c d b i j t s Hc Hd Hb L IH]; intros s' L'.
  - inversion L'; reflexivity.
  - inversion L' as [|c' t' s'' M1 M2 M3 L''|c' d t' s'' I L''|c' d b i j t' s'' Hc Hd Hb L'']; subst; [f_equal; auto|congruence|congruence].
  - inversion L' as [|c' t' s'' M1 M2 M3 L''|c' d' t' s'' I' L''|c' d' b i j t' s'' Hc Hd Hb L'']; subst; [congruence| |].
    + rewrite (IH _ L''). f_equal.
      assert (Q : nat_of_ascii d = nat_of_ascii d').
      { clear -I I'. cbn in I, I'.
        repeat (destruct I as [I|I]; [injection I as <- E; rewrite <- E; clear E; repeat (destruct I' as [I'|I']; [try discriminate I'; injection I' as E; exact E|]); destruct I'|]). destruct I. }
      rewrite <- (ascii_nat_embedding d), <- (ascii_nat_embedding d'), Q. reflexivity.
    + cbn in I. intuition discriminate.
  - inversion L' as [|c' t' s'' M1 M2 M3 L''|c' d' t' s'' I' L''|c' d' b' i' j' t' s'' Hc' Hd' Hb' L'']; subst; [congruence|cbn in I'; intuition discriminate|].
    rewrite (IH _ L''). f_equal. assert (i = i') by (eapply hex_fun; eassumption). assert (j = j') by (eapply hex_fun; eassumption). subst.
    rewrite <- (ascii_nat_embedding b), <- (ascii_nat_embedding b'), Hb, Hb'. reflexivity.
Qed.

(** ** Small parts *)
Lemma capitalize_large n : large_first n (capitalize n).
Proof. apply large_first_iff. reflexivity. Qed.
Lemma fmt_numeral z : numeral (fmt_d z) z.
Proof. exact (fmt_d_numeral (fun _ => "") (fun _ _ => "") z). Qed.
Lemma route_part h : path_part (h_path h) (route_path h).
Proof.
  unfold route_path. generalize (h_path h) as s. induction s as [|c s IH].
  - cbn. split; [apply no_char_nil|auto].
  - cbn [index_of]. destruct (has_prefix "?" (String c s)) eqn:E.
    + apply has_prefix_spec in E as (r & E). split; [apply no_char_nil|right]. exists r. exact E.
    + assert (N : c <> "?"%char).
      { intros ->. cbn in E. discriminate. }
      destruct (index_of "?" s) as [i|]; cbn [option_map stake] in IH |- *; destruct IH as [A B]; (split; [apply no_char_cons; auto|]); destruct B as [B|(q & B)].
      * left. exact (f_equal (String c) B).
      * right. exists q. cbn [append]. exact (f_equal (String c) B).
      * left. exact (f_equal (String c) B).
      * right. exists q. cbn [append]. exact (f_equal (String c) B).
Qed.
Lemma wrap_name_spec s : wrap_name s (if has_prefix "*" s then "&" +++ sdrop 1 s else s).
Proof.
  destruct (has_prefix "*" s) eqn:E.
  - apply has_prefix_spec in E as (r & ->). left. exists r. split; reflexivity.
  - right. split; [|reflexivity]. intros r ->. cbn in E. discriminate.
Qed.
Lemma dec_int64_spec d : whole_part d (dec_int64 d).
Proof.
  destruct d as [m e|[|]]; cbn [dec_int64]; [left|right; left; auto|right; right; auto].
  set (w := (if 0 <=? e then m * 2 ^ e else Z.quot m (2 ^ (- e)))%Z). exists m, e, w. split; [reflexivity|]. split.
  - subst w. destruct (0 <=? e)%Z eqn:E; [apply Z.leb_le in E; left; auto|apply Z.leb_gt in E; right]. split; [exact E|]. exists (Z.rem m (2 ^ (- e)))%Z.
    assert (P : (0 < 2 ^ (- e))%Z) by (apply Z.pow_pos_nonneg; lia). pose proof (Z.quot_rem m (2 ^ (- e)) ltac:(lia)). split; [lia|].
    split; [pose proof (Z.rem_bound_abs m (2 ^ (- e)) ltac:(lia)); lia|]. apply Z.rem_sign_mul. lia.
  - unfold clamp64. generalize w. intros v. lia.
Qed.

Definition adds (st st' : gost) (P : Prop) : Prop :=
  (forall p, In p (go_imports st') <-> In p (go_imports st) \/ (p = sadl_package /\ P)) /\ (NoDup (go_imports st) -> NoDup (go_imports st')).
Lemma adds_refl st (P : Prop) : ~ P -> adds st st P.
Proof. intros N. split; [|auto]. intros p. tauto. Qed.
Lemma adds_trans a b c P Q : adds a b P -> adds b c Q -> adds a c (P \/ Q).
Proof. intros [A A'] [B B']. split; [|auto]. intros p. rewrite B, A. tauto. Qed.
Lemma adds_ext a b P Q : adds a b P -> (P <-> Q) -> adds a b Q.
Proof. intros [A A'] E. split; [|exact A']. intros p. rewrite A. tauto. Qed.

Lemma emit_all_spec {A B} (f : A -> gost -> result unit (string * gost)) (R : A -> B -> Prop) (txt : B -> string) (P : A -> Prop) l :
  (forall x st s st', In x l -> f x st = Ok (s, st') -> exists y, R x y /\ s = txt y /\ adds st st' (P x)) ->
  forall st s st', emit_all f l st = Ok (s, st') -> exists ys, Forall2 R l ys /\ s = each txt ys /\ adds st st' (exists x, In x l /\ P x).
Proof.
  induction l as [|x l IH]; intros H st s st' E; cbn [emit_all] in E.
  - assert (s = "" /\ st' = st) as [-> ->] by (split; congruence). exists []. split; [constructor|]. split; [reflexivity|]. apply adds_refl. intros (x & [] & _).
  - apply rbind_Ok in E as ([s1 st1] & E1 & E). apply rbind_Ok in E as ([s2 st2] & E2 & E). assert (s = s1 +++ s2 /\ st' = st2) as [-> ->] by (split; congruence).
    apply H in E1 as (y & R1 & -> & A1); [|left; reflexivity]. apply IH in E2 as (ys & R2 & -> & A2); [|intros z st0 s0 st0' I; apply H; right; exact I].
    exists (y :: ys). split; [constructor; assumption|]. split; [reflexivity|].
    eapply adds_ext; [eapply adds_trans; [exact A1|exact A2]|]. split.
    + intros [Q|(z & I & Q)]; [exists x; cbn; auto|exists z; cbn; auto].
    + intros (z & [<- |I] & Q); eauto.
Qed.
Lemma emit_all_total {A} (f : A -> gost -> result unit (string * gost)) l :
  (forall x st, In x l -> f x st = Panic \/ exists s st', f x st = Ok (s, st')) ->
  forall st, emit_all f l st = Panic \/ exists s st', emit_all f l st = Ok (s, st').
Proof.
  induction l as [|x l IH]; intros H st; cbn [emit_all]; [eauto|].
  destruct (H x st (or_introl eq_refl)) as [E|(s & st' & E)]; rewrite E; cbn [rbind]; [auto|].
  destruct (IH (fun z st0 I => H z st0 (or_intror I)) st') as [F|(s2 & st2 & F)]; rewrite F; cbn [rbind]; eauto.
Qed.
Lemma emit_all_panic {A} (f : A -> gost -> result unit (string * gost)) (bad : A -> Prop) l :
  (forall x st, In x l -> (f x st = Panic /\ bad x) \/ (~ bad x /\ exists s st', f x st = Ok (s, st'))) ->
  forall st, (emit_all f l st = Panic /\ exists x, In x l /\ bad x) \/ ((forall x, In x l -> ~ bad x) /\ exists s st', emit_all f l st = Ok (s, st')).
Proof.
  induction l as [|x l IH]; intros H st; cbn [emit_all]; [right; split; [intros x []|eauto]|].
  destruct (H x st (or_introl eq_refl)) as [[E B]|(N & s & st' & E)]; rewrite E; cbn [rbind]; [left; split; [reflexivity|exists x; cbn; auto]|].
  destruct (IH (fun z st0 I => H z st0 (or_intror I)) st') as [[F (z & I & B)]|(M & s2 & st2 & F)]; rewrite F; cbn [rbind].
  - left. split; [reflexivity|exists z; cbn; auto].
  - right. split; [intros z [<- |I]; auto|eauto].
Qed.

Section SERVER.
Context (sch : schema) (m : model) (Hm : new_model sch = Ok m) (rt : bool) (sprint : value -> string) (parse_time : string -> option timestamp).
Definition instant_of (s : string) (t : timestamp) : Prop := parse_time s = Some t.
Definition stamp_of (t : timestamp) (s : string) : Prop := s = ts_string t.
Notation conv := (converted sprint instant_of stamp_of sch rt).

Lemma server_type_spec n st s st' : server_type m rt n st = Ok (s, st') -> go_name sch rt n s /\ adds st st' (sadl_use sch rt n).
Proof.
  unfold server_type. destruct (find_type m n) as [td|] eqn:F.
  - intros H. apply (native_name_spec sch m Hm) in H as (t & U & -> & (_ & _ & S & S')). split.
    + right. exists (td_spec td), t. split; [apply (find_def sch m Hm); exact F|]. split; [exact U|reflexivity].
    + split; [|exact S']. intros p. rewrite S. apply or_iff_compat_l. unfold lib_import. apply and_iff_compat_l. split.
      * intros (k & M). exists (td_spec td), t, k. split; [apply (find_def sch m Hm); exact F|auto].
      * intros (ts & t' & k & D & U' & M). exists k. assert (ts = td_spec td) as -> by (eapply defines_fun; [exact Hm|exact D|apply (find_def sch m Hm); exact F]).
        rewrite (use_fun sch m Hm rt _ _ _ U _ U'). exact M.
  - intros E. assert (s = n /\ st' = st) as [-> ->] by (split; congruence). assert (N := proj1 (find_none sch m Hm n) F). split.
    + left. split; [intros (ts & D); exact (N ts D)|reflexivity].
    + apply adds_refl. intros (ts & t & k & D & _). exact (N ts D).
Qed.
Lemma server_type_total n st : (server_type m rt n st = Panic /\ exists ts, defines sch n ts /\ forall t, ~ go_use sch rt ts n t)
  \/ ((forall ts, defines sch n ts -> exists t, go_use sch rt ts n t) /\ exists s st', server_type m rt n st = Ok (s, st')).
Proof.
  unfold server_type. destruct (find_type m n) as [td|] eqn:F.
  - destruct (native_name_total sch m Hm rt (td_spec td) n st) as [E|(s & st' & E)].
    + left. split; [exact E|]. exists (td_spec td). split; [apply (find_def sch m Hm); exact F|]. exact (proj1 (native_name_panic sch m Hm rt _ _ _) E).
    + right. split; [|eauto]. intros ts D. apply (native_name_spec sch m Hm) in E as (t & U & _).
      assert (ts = td_spec td) as -> by (eapply defines_fun; [exact Hm|exact D|apply (find_def sch m Hm); exact F]). eauto.
  - right. split; [|eauto]. intros ts D. destruct (proj1 (find_none sch m Hm n) F ts D).
Qed.
Lemma base_known n b : base_type m n = b -> b <> "" -> exists ts, defines sch n ts /\ ts_type ts = b.
Proof.
  unfold base_type. destruct (find_type m n) as [td|] eqn:F; [|congruence]. intros <- _. exists (td_spec td). split; [apply (find_def sch m Hm); exact F|reflexivity].
Qed.
Lemma base_of n ts : defines sch n ts -> base_type m n = ts_type ts.
Proof. intros D. unfold base_type. destruct (def_find sch m Hm _ _ D) as (td & -> & <-). reflexivity. Qed.
(** the name of a simple type in a conversion *)
Lemma simple_name n ts s : defines sch n ts -> In (ts_type ts) simple_types -> go_name sch rt n s ->
  (n = "UUID" /\ s = "UUID") \/ (n = "Timestamp") \/ (n <> "UUID" /\ n <> "Timestamp" /\ (s = n \/ In s ["string"; "int8"; "int16"; "int32"; "int64"]) /\ (s = n -> ~ In n simple_types)).
Proof.
  intros D I [[N _]|(ts' & t & D' & U & ->)]; [destruct N; eexists; exact D|].
  assert (ts' = ts) as -> by (eapply defines_fun; [exact Hm|exact D'|exact D]).
  assert (BI : forall x, In x builtin_names -> n = x -> ts_type ts = x).
  { intros x B ->. rewrite (builtin_def sch m Hm x ts B D). reflexivity. }
  destruct U as [ts n t J|ts n J|ts ti t E V|ts tk k ti t K V E W|ts n td P E T|ts n td P E T].
  - right; right. assert (B : In n builtin_names) by (cbn in J |- *; repeat (destruct J as [J|J]; [injection J as <- <-; tauto|]); destruct J).
    specialize (BI n B eq_refl). rewrite BI in I. cbn in J. repeat (destruct J as [J|J]; [injection J as <- <-; first [cbn in I; exfalso; clear -I; intuition discriminate|
      split; [discriminate|]; split; [discriminate|]; split; [cbn; tauto|discriminate]]|]). destruct J.
  - destruct J as [<- |[<- |[<- |[]]]]; [exfalso; rewrite (BI "Decimal" ltac:(cbn; tauto) eq_refl) in I|right; left; reflexivity|exfalso; rewrite (BI "UnitValue" ltac:(cbn; tauto) eq_refl) in I];
      cbn in I; clear -I; intuition discriminate.
  - exfalso. rewrite (BI "Array" ltac:(cbn; tauto) eq_refl) in I. cbn in I. clear -I. intuition discriminate.
  - exfalso. rewrite (BI "Map" ltac:(cbn; tauto) eq_refl) in I. cbn in I. clear -I. intuition discriminate.
  - exfalso. assert (td = ts) as -> by (eapply defines_fun; [exact Hm|exact E|exact D]). rewrite T in I. cbn in I. clear -I. intuition discriminate.
  - cbn [type_text]. destruct (string_dec n "UUID") as [-> |NU]; [left; auto|]. right; right. destruct P as (PB & PL & _). split; [exact NU|]. split; [intros ->; apply PL; cbn; tauto|].
    split; [auto|]. intros _ Q. cbn in Q, PB. clear -Q PB NU PL. cbn in PL. intuition congruence.
Qed.
Lemma not_pointer s : In s ["string"; "int8"; "int16"; "int32"; "int64"] -> has_prefix "*" s = false.
Proof. intros I. cbn in I. repeat (destruct I as [<- |I]; [reflexivity|]). destruct I. Qed.
Lemma text_default_spec v : text_default sprint v (string_default sprint v).
Proof. destruct v; cbn [string_default]; constructor; congruence. Qed.
Lemma time_default_spec v : exists d, time_default instant_of stamp_of v d /\ timestamp_default parse_time v = match d with Some t => literal_text t | None => "nil" end.
Proof.
  unfold timestamp_default.
  destruct v as [| | |x| | | | |t| | | | |]; try (exists None; split; [apply td_none; congruence|reflexivity]).
  - destruct (parse_time x) as [t|] eqn:E.
    + exists (Some (quote_chars (ts_string t))). split; [|reflexivity]. eapply td_string; [exact E|reflexivity|apply quote_literal].
    + exists None. split; [|reflexivity]. apply td_none; [congruence|]. intros s t Es. assert (x = s) as -> by congruence. unfold instant_of. congruence.
  - exists (Some (quote_chars (ts_string t))). split; [|reflexivity]. eapply td_time; [reflexivity|apply quote_literal].
Qed.
Lemma number_default_spec v : number_default v (int_default v).
Proof. destruct v; cbn [int_default]; try (apply nd_other; congruence). apply nd_decimal. apply dec_int64_spec. Qed.
Lemma wrap_differs n ts t : defines sch n ts -> In (ts_type ts) simple_types -> n <> "UUID" -> n <> "Timestamp" -> go_name sch rt n t ->
  (if has_prefix "*" t then "&" +++ sdrop 1 t else t) =?s ts_type ts = false.
Proof.
  intros D I N1 N2 G. apply seqb_neq. destruct (simple_name n ts t D I G) as [[E _]|[E|(_ & _ & C & C')]]; [contradiction|contradiction|].
  destruct C as [-> |C].
  - specialize (C' eq_refl). destruct (has_prefix "*" n) eqn:P; [|congruence]. intros E. rewrite <- E in I. cbn in I. clear -I. intuition discriminate.
  - rewrite (not_pointer _ C). intros E. rewrite <- E in I. clear -C I. cbn in C. repeat (destruct C as [<- |C]; [cbn in I; intuition discriminate|]). destruct C.
Qed.
Lemma accessor_spec p v st s st' : param_accessor sprint parse_time m rt p v st = Ok (s, st') ->
  exists c, conv (ps_field p) c /\ s = convert_text v c /\ adds st st' (sadl_use sch rt (ts_type (fd_spec (ps_field p)))).
Proof.
  unfold param_accessor. set (n := ts_type (fd_spec (ps_field p))). intros H. apply rbind_Ok in H as ([t st1] & T & H). cbv zeta in H.
  apply server_type_spec in T as [G A].
  assert (BI : forall x ts, In x builtin_names -> n = x -> defines sch n ts -> ts_type ts = x).
  { intros x ts B E D. rewrite E in D. rewrite (builtin_def sch m Hm x ts B D). reflexivity. }
  assert (W : wrap_of sch rt n (if has_prefix "*" t then "&" +++ sdrop 1 t else t)) by (exists t; split; [exact G|apply wrap_name_spec]).
  destruct (str_mem (base_type m n) ["String"; "UUID"]) eqn:E1.
  - apply str_mem_In in E1. assert (B : exists ts, defines sch n ts /\ ts_type ts = base_type m n).
    { apply base_known; [reflexivity|]. intros E. rewrite E in E1. cbn in E1. intuition discriminate. }
    destruct B as (ts & D & B). assert (I : In (ts_type ts) simple_types) by (rewrite B; clear -E1; cbn in *; intuition).
    rewrite <- B in *. destruct (string_dec n "UUID") as [E|NE].
    + assert (TU : ts_type ts = "UUID") by (eapply BI; [cbn; tauto|exact E|exact D]). destruct (simple_name n ts t D I G) as [[_ Et]|[Et|(C & _)]]; [|congruence|contradiction].
      rewrite Et, TU in H. assert (Q : (if has_prefix "*" "UUID" then "&" +++ sdrop 1 "UUID" else "UUID") =?s "UUID" = true) by reflexivity. rewrite Q in H. clear Q.
      exists (AsText None (quote_chars (string_default sprint (fd_default (ps_field p))))). split; [|split].
      * apply cv_uuid with (ts := ts) (s := string_default sprint (fd_default (ps_field p))); [exact E|rewrite <- E; exact D|exact TU|apply text_default_spec|apply quote_literal].
      * cbn [convert_text wrapped]. rewrite <- quote_text. congruence.
      * assert (st1 = st') by congruence. subst st1. exact A.
    + assert (NT : n <> "Timestamp") by (intros E; rewrite (BI "Timestamp" ts ltac:(cbn; tauto) E D) in E1; cbn in E1; intuition discriminate).
      rewrite (wrap_differs n ts t D I NE NT G) in H.
      exists (AsText (Some (if has_prefix "*" t then "&" +++ sdrop 1 t else t)) (quote_chars (string_default sprint (fd_default (ps_field p))))).
      assert (st1 = st') by congruence. subst st1. split; [|split; [|exact A]].
      * destruct E1 as [E1|[E1|[]]].
        -- eapply cv_text; [reflexivity|exact D|auto|exact W|apply text_default_spec|apply quote_literal].
        -- eapply cv_named_uuid; [exact NE|reflexivity|exact D|auto|exact W|apply text_default_spec|apply quote_literal].
      * cbn [convert_text wrapped]. rewrite <- quote_text. congruence.
  - destruct (base_type m n =?s "Timestamp") eqn:E2.
    + apply seqb_eq in E2. destruct (base_known n _ E2 ltac:(discriminate)) as (ts & D & B). destruct (time_default_spec (fd_default (ps_field p))) as (d & Td & Et).
      exists (AsTime d). assert (st1 = st') by congruence. subst st1. split; [|split; [|exact A]].
      * eapply cv_time; [reflexivity|exact D|exact B|exact Td].
      * cbn [convert_text]. rewrite <- Et. congruence.
    + destruct (str_mem (base_type m n) ["Int32"; "Int8"; "Int16"; "Int64"]) eqn:E3; [|discriminate].
      apply str_mem_In in E3. assert (B : exists ts, defines sch n ts /\ ts_type ts = base_type m n).
      { apply base_known; [reflexivity|]. intros E. rewrite E in E3. cbn in E3. clear -E3. intuition discriminate. }
      destruct B as (ts & D & B). assert (I : In (ts_type ts) simple_types) by (rewrite B; clear -E3; cbn in *; intuition). rewrite <- B in *.
      assert (NU : n <> "UUID") by (intros E; rewrite (BI "UUID" ts ltac:(cbn; tauto) E D) in E3; cbn in E3; clear -E3; intuition discriminate).
      assert (NT : n <> "Timestamp") by (intros E; rewrite (BI "Timestamp" ts ltac:(cbn; tauto) E D) in E3; cbn in E3; clear -E3; intuition discriminate).
      rewrite (wrap_differs n ts t D I NU NT G) in H.
      exists (AsInt (Some (if has_prefix "*" t then "&" +++ sdrop 1 t else t)) (fmt_d (int_default (fd_default (ps_field p))))).
      assert (st1 = st') by congruence. subst st1. split; [|split; [|exact A]].
      * eapply cv_int; [reflexivity|exact D|clear -E3; unfold ints; cbn in *; tauto|exact W|apply number_default_spec|apply fmt_numeral].
      * cbn [convert_text wrapped]. congruence.
Qed.
Definition not_simple (p : paramspec) : Prop := forall ts, defines sch (ts_type (fd_spec (ps_field p))) ts -> ~ In (ts_type ts) simple_types.
Lemma simple_used n ts : defines sch n ts -> In (ts_type ts) simple_types -> exists t, go_use sch rt ts n t.
Proof.
  intros D I. destruct (in_dec string_dec n (map fst go_basic)) as [J|J].
  { apply in_map_iff in J as ([n' t] & E & J). cbn in E. subst n'. exists t. now constructor. }
  destruct (in_dec string_dec n go_library) as [L|L]; [eexists; apply gu_library; exact L|].
  assert (NC : n <> "Array" /\ n <> "Map").
  { split; intros E; assert (Q := D); rewrite E in Q; [rewrite (builtin_def sch m Hm "Array" ts ltac:(cbn; tauto) Q) in I|rewrite (builtin_def sch m Hm "Map" ts ltac:(cbn; tauto) Q) in I];
      cbn in I; clear -I; intuition discriminate. }
  exists (GNamed n). eapply gu_other; [split; [exact J|split; [exact L|exact NC]]|exact D|]. intros E. rewrite E in I. cbn in I. clear -I. intuition discriminate.
Qed.
Lemma accessor_total p v st : (param_accessor sprint parse_time m rt p v st = Panic /\ not_simple p)
  \/ (~ not_simple p /\ exists s st', param_accessor sprint parse_time m rt p v st = Ok (s, st')).
Proof.
  unfold param_accessor. set (n := ts_type (fd_spec (ps_field p))).
  destruct (in_dec string_dec (base_type m n) simple_types) as [I|N].
  - right. assert (B : exists ts, defines sch n ts /\ ts_type ts = base_type m n).
    { apply base_known; [reflexivity|]. intros E. rewrite E in I. cbn in I. clear -I. intuition discriminate. }
    destruct B as (ts & D & B). split; [intros C; apply (C ts D); rewrite B; exact I|].
    destruct (server_type_total n st) as [[_ (ts' & D' & X)]|(_ & t & st1 & E)].
    + assert (ts' = ts) as -> by (eapply defines_fun; [exact Hm|exact D'|exact D]). destruct (simple_used n ts D) as [t U]; [rewrite B; exact I|]. destruct (X t U).
    + rewrite E. cbn [rbind]. cbv zeta. destruct (str_mem (base_type m n) ["String"; "UUID"]) eqn:E1; [eauto|].
      destruct (base_type m n =?s "Timestamp") eqn:E2; [eauto|]. destruct (str_mem (base_type m n) ["Int32"; "Int8"; "Int16"; "Int64"]) eqn:E3; [eauto|].
      exfalso. assert (X1 : ~ In (base_type m n) ["String"; "UUID"]) by (intros Q; apply str_mem_In in Q; congruence).
      assert (X3 : ~ In (base_type m n) ["Int32"; "Int8"; "Int16"; "Int64"]) by (intros Q; apply str_mem_In in Q; congruence).
      apply seqb_neq in E2. clear -I X1 X3 E2. cbn in *. intuition.
  - left. assert (NS : not_simple p) by (intros ts D; fold n in D; rewrite <- (base_of n ts D); exact N). split; [|exact NS].
    destruct (server_type_total n st) as [[E _]|(_ & t & st1 & E)]; rewrite E; cbn [rbind]; [reflexivity|]. cbv zeta.
    destruct (str_mem (base_type m n) ["String"; "UUID"]) eqn:E1; [apply str_mem_In in E1; destruct N; clear -E1; cbn in *; intuition|].
    destruct (base_type m n =?s "Timestamp") eqn:E2; [apply seqb_eq in E2; destruct N; rewrite E2; cbn; tauto|].
    destruct (str_mem (base_type m n) ["Int32"; "Int8"; "Int16"; "Int64"]) eqn:E3; [apply str_mem_In in E3; destruct N; clear -E3; cbn in *; intuition|]. reflexivity.
Qed.
Notation inp := (input_shown sprint instant_of stamp_of sch rt).
Lemma tabbed_1 s : tab +++ s +++ nl = tabbed 1 s. Proof. reflexivity. Qed.
Lemma tabbed_2 s : tab +++ tab +++ s +++ nl = tabbed 2 s. Proof. reflexivity. Qed.
Lemma tabbed_3 s : tab +++ tab +++ tab +++ s +++ nl = tabbed 3 s. Proof. reflexivity. Qed.
Lemma bad_request_text : bad_request = failing_text. Proof. reflexivity. Qed.
Notation value_use := (value_use sch rt).
Lemma input_spec p st s st' : emit_input sprint parse_time m rt p st = Ok (s, st') ->
  exists i, inp p i /\ s = input_text i /\ adds st st' (value_use p).
Proof.
  unfold emit_input. cbv zeta.
  assert (V : forall src, ~ in_body p -> ('(s0, st1) <- param_accessor sprint parse_time m rt p (source_text src) st ;;
      Ok (tab +++ "req." +++ capitalize (fd_name (ps_field p)) +++ " = " +++ s0 +++ nl, st1)) = Ok (s, st') ->
    (forall c, conv (ps_field p) c -> inp p (Value_ (capitalize (fd_name (ps_field p))) src c)) ->
    exists i, inp p i /\ s = input_text i /\ adds st st' (value_use p)).
  { intros src NB H S. apply rbind_Ok in H as ([s0 st1] & H & E). apply accessor_spec in H as (c & C & -> & A).
    exists (Value_ (capitalize (fd_name (ps_field p))) src c). split; [apply S; exact C|].
    assert (st' = st1) by congruence. subst st1. split.
    - cbn [input_text]. rewrite <- tabbed_1, !append_assoc.
      assert (Q : s = tab +++ "req." +++ capitalize (fd_name (ps_field p)) +++ " = " +++ convert_text (source_text src) c +++ nl) by congruence. exact Q.
    - eapply adds_ext; [exact A|]. unfold SpecGoServer.value_use. tauto. }
  destruct (ps_query p =?s "") eqn:Q; cbn [negb].
  - apply seqb_eq in Q. destruct (ps_header p =?s "") eqn:Hd; cbn [negb].
    + apply seqb_eq in Hd. destruct (ps_path p) eqn:P.
      * rewrite quote_text. intros H. apply (V (FromPath (quote_chars (fd_name (ps_field p))))); [intros (_ & _ & X); congruence|exact H|].
        intros c C. apply is_path; auto using capitalize_large, quote_literal.
      * intros H. exists (Body_ (capitalize (fd_name (ps_field p)))). split; [apply is_body_; auto using capitalize_large|]. split.
        -- cbn [input_text]. rewrite <- tabbed_1, <- bad_request_text, !append_assoc.
           assert (X : s = tab +++ "err := json.NewDecoder(r.Body).Decode(&req." +++ capitalize (fd_name (ps_field p)) +++ ")" +++ nl +++ bad_request) by congruence. exact X.
        -- assert (st' = st) by congruence. subst st'. apply adds_refl. intros [X _]. apply X. split; auto.
    + apply seqb_neq in Hd. rewrite quote_text. intros H. apply (V (FromHeader (quote_chars (ps_header p)))); [intros (_ & X & _); congruence|exact H|].
      intros c C. apply is_header; auto using capitalize_large, quote_literal.
  - apply seqb_neq in Q. rewrite quote_text. intros H. apply (V (FromQuery (quote_chars (ps_query p)))); [intros (X & _); congruence|exact H|].
    intros c C. apply is_query; auto using capitalize_large, quote_literal.
Qed.
Lemma input_total p st : (emit_input sprint parse_time m rt p st = Panic /\ (~ in_body p /\ not_simple p))
  \/ (~ (~ in_body p /\ not_simple p) /\ exists s st', emit_input sprint parse_time m rt p st = Ok (s, st')).
Proof.
  unfold emit_input. cbv zeta.
  assert (V : forall v, ~ in_body p -> (('(s0, st1) <- param_accessor sprint parse_time m rt p v st ;;
      Ok (tab +++ "req." +++ capitalize (fd_name (ps_field p)) +++ " = " +++ s0 +++ nl, st1)) = Panic /\ (~ in_body p /\ not_simple p))
    \/ (~ (~ in_body p /\ not_simple p) /\ exists s st', ('(s0, st1) <- param_accessor sprint parse_time m rt p v st ;;
      Ok (tab +++ "req." +++ capitalize (fd_name (ps_field p)) +++ " = " +++ s0 +++ nl, st1)) = Ok (s, st'))).
  { intros v NB. destruct (accessor_total p v st) as [[E N]|(N & s & st' & E)]; rewrite E; cbn [rbind]; [left; auto|right]. split; [tauto|eauto]. }
  destruct (ps_query p =?s "") eqn:Q; cbn [negb].
  - apply seqb_eq in Q. destruct (ps_header p =?s "") eqn:Hd; cbn [negb].
    + apply seqb_eq in Hd. destruct (ps_path p) eqn:P.
      * apply V. intros (_ & _ & X). congruence.
      * right. split; [|eauto]. intros [X _]. apply X. split; auto.
    + apply seqb_neq in Hd. apply V. intros (_ & X & _). congruence.
  - apply seqb_neq in Q. apply V. intros (X & _). congruence.
Qed.
Lemma forms ins is : Forall2 inp ins is -> existsb (fun p => negb (ps_query p =?s "")) ins = existsb from_query is.
Proof.
  induction 1 as [|p i ins is H _ IH]; [reflexivity|]. cbn [existsb]. rewrite IH. f_equal.
  destruct H as [f k c Q L K C|f k c Q Hd L K C|f k c Q Hd P L K C|f Q Hd P L]; cbn [from_query]; [|rewrite Q; reflexivity|rewrite Q; reflexivity|rewrite Q; reflexivity].
  apply seqb_neq in Q. rewrite Q. reflexivity.
Qed.
Lemma inputs_spec ins st s st' : emit_inputs sprint parse_time m rt ins st = Ok (s, st') ->
  exists is, Forall2 inp ins is /\ s = (if existsb from_query is then tabbed 1 "err := r.ParseForm()" +++ failing_text else "") +++ each input_text is
  /\ adds st st' (exists p, In p ins /\ value_use p).
Proof.
  unfold emit_inputs. cbv zeta. intros H. apply rbind_Ok in H as ([s1 st1] & H & E).
  apply (emit_all_spec _ inp input_text value_use) in H as (is & F & -> & A); [|intros x a b c _; apply input_spec].
  exists is. split; [exact F|]. rewrite (forms _ _ F) in E. assert (st1 = st') by congruence. subst st1. split; [|exact A].
  rewrite bad_request_text in E. remember (each input_text is) as z. clear Heqz. destruct (existsb from_query is).
  - assert (Q : s = (tab +++ "err := r.ParseForm()" +++ nl +++ failing_text) +++ z) by congruence. exact Q.
  - congruence.
Qed.
Lemma outputs_spec outs : exists hs, headers_shown outs hs /\ emit_outputs outs =
  each (fun kf => tabbed 2 ("w.Header().Add(""" +++ fst kf +++ """, normalizeHeaderValue(""" +++ fst kf +++ """, res." +++ snd kf +++ "))")) hs.
Proof.
  unfold emit_outputs. rewrite concat_each. induction outs as [|p outs IH]; [exists []; split; [constructor|reflexivity]|].
  destruct IH as (hs & S & E). cbn [each fold_right]. unfold each in E at 1. rewrite E. destruct (ps_header p =?s "") eqn:Q; cbn [negb].
  - apply seqb_eq in Q. exists hs. split; [apply hh_skip; assumption|reflexivity].
  - apply seqb_neq in Q. exists ((ps_header p, capitalize (fd_name (ps_field p))) :: hs). split; [apply hh_put; auto using capitalize_large|].
    cbn [each fold_right fst snd]. unfold each. f_equal. rewrite <- ?tabbed_1, <- ?tabbed_2, <- ?tabbed_3; unfold line. rewrite !append_assoc. reflexivity.
Qed.
Lemma entity_spec outs : exists e, entity_shown outs e /\ expected_entity outs = match e with Some f => "res." +++ f | None => "nil" end.
Proof.
  induction outs as [|p outs IH]; [exists None; split; [intros p []|reflexivity]|]. cbn [expected_entity]. destruct (ps_header p =?s "") eqn:Q.
  - apply seqb_eq in Q. exists (Some (capitalize (fd_name (ps_field p)))). split; [|reflexivity]. exists [], p, outs. split; [reflexivity|]. split; [intros q []|].
    split; [exact Q|apply capitalize_large].
  - apply seqb_neq in Q. destruct IH as ([f|] & S & E).
    + exists (Some f). split; [|exact E]. destruct S as (a & q & b & -> & N & S). exists (p :: a), q, b. split; [reflexivity|]. split; [|exact S]. intros x [<- |I]; auto.
    + exists None. split; [|exact E]. intros x [<- |I]; auto.
Qed.
Definition exception_shown_ (e : exceptionspec) (ts : string * string) : Prop := go_name sch rt (xc_type e) (fst ts) /\ numeral (snd ts) (xc_status e).
Lemma exception_spec e st s st' : emit_exception m rt e st = Ok (s, st') -> exists ts, exception_shown_ e ts
  /\ s = tabbed 2 ("case " +++ fst ts +++ ":") +++ tabbed 3 ("jsonResponse(w, " +++ snd ts +++ ", err)") /\ adds st st' (sadl_use sch rt (xc_type e)).
Proof.
  unfold emit_exception. intros H. apply rbind_Ok in H as ([t st1] & H & E). apply server_type_spec in H as [G A]. exists (t, fmt_d (xc_status e)).
  assert (st1 = st') by congruence. subst st1. split; [split; [exact G|apply fmt_numeral]|]. split; [|exact A]. cbn [fst snd]. rewrite <- ?tabbed_1, <- ?tabbed_2, <- ?tabbed_3; unfold line.
  rewrite !append_assoc.
  assert (Q : s = tab +++ tab +++ "case " +++ t +++ ":" +++ nl +++ tab +++ tab +++ tab +++ "jsonResponse(w, " +++ fmt_d (xc_status e) +++ ", err)" +++ nl) by congruence. exact Q.
Qed.
Notation handlers := (handler_shown sprint instant_of stamp_of sch rt).
Notation action_use := (action_use sch rt).
Lemma handler_spec adaptor h st s st' : emit_handler sprint parse_time m rt adaptor h st = Ok (s, st') ->
  exists k, handlers h k /\ s = handler_text adaptor k /\ adds st st' (action_use h) /\ emit_route h = route_text k.
Proof.
  unfold emit_handler. cbv zeta. intros H. apply rbind_Ok in H as (rn & C & H). apply go_capitalize_spec in C as [NE L].
  apply large_first_iff in L. subst rn. apply rbind_Ok in H as ([ins st1] & I & H). destruct (h_expected h) as [x|] eqn:X; [|discriminate].
  apply rbind_Ok in H as ([exs st2] & E & H). apply inputs_spec in I as (is & FI & EI & A1).
  apply (emit_all_spec _ exception_shown_ (fun ts => tabbed 2 ("case " +++ fst ts +++ ":") +++ tabbed 3 ("jsonResponse(w, " +++ snd ts +++ ", err)"))
    (fun e => sadl_use sch rt (xc_type e))) in E as (es & FE & EE & A2); [|intros a b c d _; apply exception_spec].
  destruct (outputs_spec (xp_outputs x)) as (hs & SH & EH). destruct (entity_spec (xp_outputs x)) as (en & SE & EN).
  exists (mkHandler (capitalize (h_name h)) (h_method h) (route_path h) is ((xp_status x =? 204) || (xp_status x =? 304))%Z (fmt_d (xp_status x)) hs en es).
  assert (st2 = st') by congruence. subst st2. split; [|split; [|split]].
  - exists x. split; [exact X|]. split; [exact NE|]. cbn. split; [apply capitalize_large|]. split; [reflexivity|]. split; [apply route_part|]. split; [exact FI|].
    split; [unfold no_content; rewrite Bool.orb_true_iff, !Z.eqb_eq; tauto|]. split; [apply fmt_numeral|]. split; [exact SH|]. split; [exact SE|exact FE].
  - unfold handler_text. cbn [hd_name hd_method hd_route hd_inputs hd_quiet hd_status hd_headers hd_entity hd_exceptions].
    rewrite EI, EE, EH, EN in H. unfold expected_result in H.
    remember (if existsb from_query is then _ else _) as z1. remember (each input_text is) as z2. remember (each _ es) as z3. remember (each _ hs) as z4.
    remember (match en with Some f => _ | None => _ end) as z5. remember (fmt_d (xp_status x)) as z6. remember (capitalize (h_name h)) as z7.
    remember (if ((xp_status x =? 204) || (xp_status x =? 304))%Z then "_" else "res") as z8.
    clear -H. rewrite <- ?tabbed_1, <- ?tabbed_2, <- ?tabbed_3; unfold line. rewrite !append_assoc in *. apply (f_equal (fun r => match r with Ok (a, _) => a | _ => "" end)) in H. symmetry. exact H.
  - eapply adds_trans; [exact A1|exact A2].
  - unfold emit_route, route_text. cbn [hd_name hd_method hd_route]. rewrite <- ?tabbed_1, <- ?tabbed_2, <- ?tabbed_3; unfold line. rewrite !append_assoc. reflexivity.
Qed.
Lemma exception_total e st : (emit_exception m rt e st = Panic /\ exists ts, defines sch (xc_type e) ts /\ forall t, ~ go_use sch rt ts (xc_type e) t)
  \/ (~ (exists ts, defines sch (xc_type e) ts /\ forall t, ~ go_use sch rt ts (xc_type e) t) /\ exists s st', emit_exception m rt e st = Ok (s, st')).
Proof.
  unfold emit_exception. destruct (server_type_total (xc_type e) st) as [[E N]|(N & s & st' & E)]; rewrite E; cbn [rbind]; [left; auto|right].
  split; [|eauto]. intros (ts & D & X). destruct (N ts D) as [t U]. exact (X t U).
Qed.
Definition bad_exception (e : exceptionspec) : Prop := exists ts, defines sch (xc_type e) ts /\ forall t, ~ go_use sch rt ts (xc_type e) t.
Definition bad_input (p : paramspec) : Prop := ~ in_body p /\ not_simple p.
Definition bad_action (h : httpdef) : Prop :=
  h_name h = "" \/ h_expected h = None \/ (exists p, In p (h_inputs h) /\ bad_input p) \/ (exists e, In e (h_exceptions h) /\ bad_exception e).
Lemma handler_total adaptor h st : (emit_handler sprint parse_time m rt adaptor h st = Panic /\ bad_action h)
  \/ (~ bad_action h /\ exists s st', emit_handler sprint parse_time m rt adaptor h st = Ok (s, st')).
Proof.
  unfold emit_handler, bad_action. cbv zeta. destruct (h_name h) as [|c r] eqn:NE; [left; cbn [go_capitalize rbind]; auto|]. rewrite <- NE.
  assert (C : exists rn, go_capitalize (h_name h) = Ok rn) by (rewrite NE; cbn; eauto). destruct C as [rn ->]. cbn [rbind].
  assert (NN : h_name h <> "") by (rewrite NE; discriminate).
  destruct (emit_all_panic (emit_input sprint parse_time m rt) bad_input (h_inputs h) (fun x a _ => input_total x a) st) as [[E X]|(X & s1 & st1 & E)].
  - left. unfold emit_inputs. cbv zeta. rewrite E. cbn [rbind]. split; [reflexivity|auto].
  - assert (EI : exists s2, emit_inputs sprint parse_time m rt (h_inputs h) st = Ok (s2, st1)) by (unfold emit_inputs; cbv zeta; rewrite E; cbn [rbind]; eauto).
    destruct EI as [s2 ->]. cbn [rbind]. destruct (h_expected h) as [x|] eqn:HX; [|left; auto].
    destruct (emit_all_panic (emit_exception m rt) bad_exception (h_exceptions h) (fun x a _ => exception_total x a) st1) as [[F Y]|(Y & s3 & st3 & F)]; rewrite F; cbn [rbind].
    + left. split; [reflexivity|auto].
    + right. split; [|eauto]. intros [Z|[Z|[(p & I & Z)|(e & I & Z)]]]; [exact (NN Z)|discriminate|exact (X p I Z)|exact (Y e I Z)].
Qed.
Lemma use_any_runtime ts n : (forall t, ~ go_use sch rt ts n t) <-> no_go_type sch ts n.
Proof.
  split; [|intros N t; apply N]. intros N rt' t U.
  assert (R : forall ts n t, go_use sch rt' ts n t -> exists t', go_use sch rt ts n t').
  { clear. intros ts n t U. induction U as [ts n t I|ts n I|ts ti t D U [t' IH]|ts tk k ti t K U [k' IHk] D V [t' IH]|ts n td P D T|ts n td P D T].
    - eexists; apply gu_basic; exact I.
    - eexists; apply gu_library; exact I.
    - eexists; eapply gu_array; eassumption.
    - eexists; eapply gu_map; eassumption.
    - eexists; eapply gu_struct; eassumption.
    - eexists; eapply gu_other; eassumption. }
  destruct (R _ _ _ U) as [t' U']. exact (N t' U').
Qed.
Lemma fails_iff : server_fails sch <-> exists h, In h (sc_http sch) /\ bad_action h.
Proof.
  unfold bad_action. split.
  - intros [h I N|h I N|h p I J NB N|h e I J (ts & D & N)]; exists h; (split; [exact I|]); auto.
    + right; right; left. exists p. split; [exact J|split; assumption].
    + right; right; right. exists e. split; [exact J|]. exists ts. split; [exact D|]. intros t. apply N.
  - intros (h & I & [N|[N|[(p & J & NB & N)|(e & J & ts & D & N)]]]).
    + eapply sf_name; eassumption.
    + eapply sf_expected; eassumption.
    + eapply sf_input; eassumption.
    + eapply sf_exception; [exact I|exact J|]. exists ts. split; [exact D|]. apply use_any_runtime. exact N.
Qed.

Lemma head_text pkg imports : file_head pkg imports =
  line "//" +++ line "// Generated by sadl" +++ line "//" +++ line ("package " +++ pkg) +++ imports_text imports.
Proof.
  unfold file_head, imports_text, line. rewrite concat_each. destruct imports as [|p ps]; [rewrite !append_assoc; reflexivity|].
  assert (E : forall l, each (fun q => tab +++ """" +++ q +++ """" +++ nl) l = each (fun q => (indent +++ """" +++ q +++ """") +++ newline) l).
  { induction l as [|q l IH]; [reflexivity|]. cbn [each fold_right]. unfold each in IH. rewrite IH. rewrite !append_assoc. reflexivity. }
  rewrite E. rewrite !append_assoc. reflexivity.
Qed.
Lemma m_is : m_schema m = sch.
Proof. destruct (new_model_inv _ _ Hm) as (E & _). exact E. Qed.
Lemma fixed_imports : fold_left adjoin server_imports [] = server_imports. Proof. reflexivity. Qed.
Lemma uncapitalize_small n : small_first n (uncapitalize n).
Proof. apply small_first_iff. reflexivity. Qed.
Lemma server_spec name pkg s : create_server sprint parse_time m rt name pkg = Ok s -> exists imports service small hs,
  s = server_text server_library pkg imports service (small +++ "Adaptor") hs /\ large_first name service /\ small_first name small
  /\ Forall2 handlers (sc_http sch) hs
  /\ NoDup imports /\ forall p, In p imports <-> In p server_imports \/ (p = sadl_package /\ exists h, In h (sc_http sch) /\ action_use h).
Proof.
  unfold create_server. intros H. apply rbind_Ok in H as ([body st] & H & E). rewrite fixed_imports in H.
  assert (B : emit_server sprint parse_time m rt name (mkGo server_imports false false) = Ok (body, st)) by (destruct (emit_server _ _ _ _ _ _); cbn in H; congruence).
  clear H. unfold emit_server in B. cbv zeta in B. rewrite m_is in B. apply rbind_Ok in B as ([hs st1] & H & B).
  apply (emit_all_spec _ (fun h k => handlers h k /\ emit_route h = route_text k) (handler_text (uncapitalize name +++ "Adaptor")) action_use) in H as (ks & F & -> & [A A']).
  2:{ intros h a b c _ X. apply handler_spec in X as (k & X1 & X2 & X3 & X4). exists k. auto. }
  assert (st1 = st) by congruence. subst st1.
  assert (R : String.concat "" (map emit_route (sc_http sch)) = each route_text ks).
  { rewrite concat_each. clear -F. induction F as [|h k l l' [_ E] F IH]; [reflexivity|]. cbn [each fold_right]. unfold each in IH. rewrite IH, E. reflexivity. }
  rewrite R in B. exists (go_imports st), (capitalize name), (uncapitalize name), ks. split; [|split; [|split; [|split; [|split]]]].
  - unfold server_text. rewrite head_text in E. remember (each (handler_text (uncapitalize name +++ "Adaptor")) ks) as z1. remember (each route_text ks) as z2.
    remember (imports_text (go_imports st)) as z3. apply (f_equal (fun r => match r with Ok (a, _) => a | _ => "" end)) in B. cbv beta iota in B. subst body.
    apply (f_equal (fun r => match r with Ok a => a | _ => "" end)) in E. cbv beta iota in E. subst s. clear.
    remember server_library as z4. clear. rewrite <- ?tabbed_1, <- ?tabbed_2; unfold line. rewrite !append_assoc. reflexivity.
  - apply capitalize_large.
  - apply uncapitalize_small.
  - clear -F. induction F as [|h k l l' [X _] F IH]; constructor; assumption.
  - apply A'. cbn [go_imports]. repeat (constructor; [cbn; intuition discriminate|]). constructor.
  - exact A.
Qed.
Lemma server_total name pkg : (create_server sprint parse_time m rt name pkg = Err tt /\ server_fails sch)
  \/ (~ server_fails sch /\ exists s, create_server sprint parse_time m rt name pkg = Ok s).
Proof.
  rewrite fails_iff. unfold create_server, emit_server. cbv zeta. rewrite m_is.
  destruct (emit_all_panic (emit_handler sprint parse_time m rt (uncapitalize name +++ "Adaptor")) bad_action (sc_http sch)
    (fun x a _ => handler_total _ x a) (mkGo (fold_left adjoin server_imports []) false false)) as [[E X]|(X & s1 & st1 & E)]; rewrite E; cbn [rbind recovered].
  - left. split; [reflexivity|exact X].
  - right. split; [|eauto]. intros (h & I & B). exact (X h I B).
Qed.
End SERVER.
