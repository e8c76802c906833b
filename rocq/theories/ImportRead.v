(** When an OpenAPI document can be read. *)
From Coq Require Import Permutation.
From Verif Require Import GoStr Outcome Value Schema Misc Model SpecModel ModelFacts SpecPV SpecMisc SpecGen OpenApi
  OpenApiImport SpecOpenApi OpenApiFacts OpenApiTotal SpecImport ImportFacts ImportRound.

(** ** Numbers *)
Lemma digit_char_digit d : d < 10 -> is_digit (digit_char d) = true /\ (Z.of_nat (nat_of_ascii (digit_char d)) - 48 = Z.of_nat d)%Z.
Proof. intros H. do 10 (destruct d as [|d]; [split; reflexivity|]). lia. Qed.
Lemma digit_is_char c : is_digit c = true -> exists d, d < 10 /\ c = digit_char d.
Proof.
  intros H. exists (nat_of_ascii c - 48). unfold is_digit in H. apply andb_true_iff in H. destruct H as [A B]. apply Nat.leb_le in A, B. change (nat_of_ascii "0") with 48 in *. change (nat_of_ascii "9") with 57 in *.
  split; [lia|]. unfold digit_char. replace (48 + (nat_of_ascii c - 48)) with (nat_of_ascii c) by lia. symmetry. apply ascii_nat_embedding.
Qed.
Lemma digits_value_snoc s c : forall acc, digits_value acc (s +++ String c "") =
  match digits_value acc s with Some v => if is_digit c then Some (v * 10 + (Z.of_nat (nat_of_ascii c) - 48))%Z else None | None => None end.
Proof. induction s as [|a s IH]; intros acc; cbn [append digits_value]; [destruct (is_digit c); reflexivity|]. destruct (is_digit a); [apply IH|reflexivity]. Qed.
Lemma digits_of_value s z : digits_of s z -> s <> "" /\ digits_value 0 s = Some z.
Proof.
  intros H. induction H as [d D|s z d H [NE IH] D].
  - destruct (digit_char_digit d D) as [A B]. split; [discriminate|]. cbn [digits_value]. rewrite A, B. f_equal; lia.
  - destruct (digit_char_digit d D) as [A B]. split; [destruct s; discriminate|]. rewrite digits_value_snoc, IH, A, B. f_equal; lia.
Qed.
Lemma digits_value_of s : forall p acc z, digits_of p acc -> digits_value acc s = Some z -> digits_of (p +++ s) z.
Proof.
  induction s as [|c s IH]; intros p acc z P H; cbn [digits_value] in H; [injection H as <-; rewrite append_nil_r; exact P|].
  destruct (is_digit c) eqn:D; [|discriminate]. destruct (digit_is_char c D) as (d & L & ->). destruct (digit_char_digit d L) as [_ B]. rewrite B in H.
  replace (p +++ String (digit_char d) s) with ((p +++ String (digit_char d) "") +++ s) by (rewrite append_assoc; reflexivity).
  eapply IH; [|exact H]. replace (acc * 10 + Z.of_nat d)%Z with (10 * acc + Z.of_nat d)%Z by lia. constructor; assumption.
Qed.
Lemma unsigned_spec s z : unsigned s = Some z <-> digits_of s z.
Proof.
  split.
  - destruct s as [|c s]; [discriminate|]. unfold unsigned. cbn [digits_value]. destruct (is_digit c) eqn:D; [|discriminate]. destruct (digit_is_char c D) as (d & L & ->).
    destruct (digit_char_digit d L) as [_ B]. rewrite B. intros H. apply (digits_value_of s (String (digit_char d) "") (Z.of_nat d) z); [constructor; exact L|].
    replace (0 * 10 + Z.of_nat d)%Z with (Z.of_nat d) in H by lia. exact H.
  - intros H. destruct (digits_of_value _ _ H) as [NE V]. destruct s; [contradiction|exact V].
Qed.
Lemma digits_first c s z : digits_of (String c s) z -> is_digit c = true.
Proof. intros H. apply digits_of_value in H. destruct H as [_ H]. cbn [digits_value] in H. destruct (is_digit c); [reflexivity|discriminate]. Qed.
Lemma atoi_spec s z : atoi s = Some z <-> int_text s z.
Proof.
  unfold atoi, int_text.
  assert (V : match s with
           | String c r => if Ascii.eqb c "-" then option_map Z.opp (unsigned r) else if Ascii.eqb c "+" then unsigned r else unsigned s
           | EmptyString => None end = Some z <->
    (digits_of s z \/ (exists r, s = "+" +++ r /\ digits_of r z) \/ (exists r n, s = "-" +++ r /\ digits_of r n /\ z = (- n)%Z))).
  { destruct s as [|c r].
    - split; [discriminate|]. intros [H|[(r & E & _)|(r & n & E & _)]]; try discriminate. apply digits_of_value in H. destruct H as [NE _]. contradiction.
    - destruct (Ascii.eqb c "-") eqn:M; [|destruct (Ascii.eqb c "+") eqn:Q].
      + apply Ascii.eqb_eq in M. subst c. split.
        * destruct (unsigned r) as [n|] eqn:U; [|discriminate]. intros E. injection E as <-. right. right. exists r, n. split; [reflexivity|]. split; [apply unsigned_spec; exact U|reflexivity].
        * intros [H|[(r' & E & _)|(r' & n & E & H & ->)]]; [apply digits_first in H; discriminate|discriminate|]. injection E as <-. apply unsigned_spec in H. rewrite H. reflexivity.
      + apply Ascii.eqb_eq in Q. subst c. rewrite unsigned_spec. split.
        * intros H. right. left. exists r. auto.
        * intros [H|[(r' & E & H)|(r' & n & E & H & _)]]; [apply digits_first in H; discriminate| |discriminate]. injection E as <-. exact H.
      + rewrite unsigned_spec. split; [auto|]. intros [H|[(r' & E & _)|(r' & n & E & _)]]; [exact H| |]; injection E as -> _; discriminate. }
  destruct (match s with EmptyString => None | String c r => _ end) as [z'|].
  - destruct ((- 2 ^ 63 <=? z') && (z' <? 2 ^ 63))%Z eqn:B.
    + apply andb_true_iff in B. destruct B as [B1 B2]. apply Z.leb_le in B1. apply Z.ltb_lt in B2. rewrite <- V. split; [intros E; split; [exact E|injection E as <-; lia]|tauto].
    + rewrite <- V. split; [discriminate|]. intros [E L]. injection E as ->. exfalso. apply andb_false_iff in B. destruct B as [B|B]; [apply Z.leb_gt in B|apply Z.ltb_ge in B]; lia.
  - rewrite <- V. split; [discriminate|intros [E _]; discriminate].
Qed.
Lemma has_x_spec s : contains "X" s = true <-> has_x s.
Proof. rewrite contains_spec. reflexivity. Qed.

(** ** References *)
Lemma type_ref_spec s n : ref_to s n <-> oas_type_ref s = n /\ n <> "".
Proof.
  unfold ref_to, oas_type_ref. destruct (o_ref s =?s "") eqn:E; cbn [negb].
  - apply seqb_eq in E. rewrite E. split; [|intros [<- N]; contradiction]. intros [N [H|[H _]]]; [discriminate|contradiction].
  - destruct (has_prefix schema_prefix (o_ref s)) eqn:P.
    + assert (P' := P). apply has_prefix_spec in P'. destruct P' as (r & R). rewrite R, sdrop_append. split.
      * intros [N [H|[_ H]]]; [|exfalso; apply H; exists r; reflexivity]. split; [|exact N]. unfold schema_prefix in H. exact (append_inj_l _ _ _ H).
      * intros [<- N]. split; [exact N|]. left. reflexivity.
    + split.
      * intros [N [H|[H _]]]; [|auto]. exfalso. assert (X : has_prefix schema_prefix (o_ref s) = true) by (apply has_prefix_spec; exists n; exact H). congruence.
      * intros [<- N]. split; [exact N|]. right. split; [reflexivity|]. intros (r & R). assert (X : has_prefix schema_prefix (o_ref s) = true) by (apply has_prefix_spec; exists r; exact R). congruence.
Qed.
Lemma refers_spec s : has_target s <-> oas_type_ref s <> "".
Proof.
  unfold has_target. split.
  - intros (n & H). apply type_ref_spec in H. destruct H as [-> N]. exact N.
  - intros H. exists (oas_type_ref s). apply type_ref_spec. auto.
Qed.
Lemma refers_b s : (negb (oas_type_ref s =?s "") = true /\ has_target s) \/ (negb (oas_type_ref s =?s "") = false /\ ~ has_target s).
Proof. rewrite refers_spec. destruct (oas_type_ref s =?s "") eqn:E; [right; apply seqb_eq in E; auto|left]. split; [reflexivity|]. intros X. rewrite X in E. discriminate. Qed.

(** ** Schemas *)
Lemma each_iff {A B} (f : A -> result unit B) l : (exists bs, each f l = Ok bs) <-> forall a, In a l -> exists b, f a = Ok b.
Proof.
  split; [|apply each_total]. intros (bs & H). apply each_Ok in H. induction H as [|a b l bs E F IH]; intros x I; [destruct I|].
  destruct I as [<-|I]; [eauto|exact (IH x I)].
Qed.
Lemma convert_iff s : (exists ts, convert_oas s = Ok ts) <-> schema_safe s.
Proof.
  induction s as [s HI HP] using oas_ind'. rewrite convert_oas_eq. cbv zeta.
  destruct (o_type s =?s "boolean") eqn:E1. { apply seqb_eq in E1. split; [intros _; apply ss_scalar; rewrite E1; simpl; tauto|eauto]. }
  destruct (o_type s =?s "string") eqn:E2. { apply seqb_eq in E2. split; [intros _; apply ss_scalar; rewrite E2; simpl; tauto|eauto]. }
  destruct (o_type s =?s "array") eqn:E3.
  { apply seqb_eq in E3. destruct (o_items s) as [i|] eqn:IT.
    - specialize (HI i eq_refl). destruct (o_ref i =?s "") eqn:R; cbn [negb].
      + apply seqb_eq in R. transitivity (schema_safe i).
        * rewrite <- HI. destruct (convert_oas i) as [ts|e| |] eqn:C; [split; eauto|exfalso; exact (convert_no_err i e C)|split; intros [? X]; discriminate|split; intros [? X]; discriminate].
        * split; [intros S; apply ss_array; [exact E3|]; intros j J; right; congruence|]. intros S. inversion S as [? T|? T A|? T A]; subst.
          -- rewrite E3 in T. simpl in T. intuition discriminate.
          -- destruct (A i IT) as [N|X]; [contradiction|exact X].
          -- rewrite E3 in T. destruct T; discriminate.
      + split; [intros _; apply ss_array; [exact E3|]|eauto]. intros j J. left. intros X. replace j with i in X by congruence. rewrite X in R. discriminate.
    - split; [intros _; apply ss_array; [exact E3|]; congruence|eauto]. }
  destruct (o_type s =?s "number") eqn:E4. { apply seqb_eq in E4. split; [intros _; apply ss_scalar; rewrite E4; simpl; tauto|eauto]. }
  destruct (o_type s =?s "integer") eqn:E5. { apply seqb_eq in E5. split; [intros _; apply ss_scalar; rewrite E5; simpl; tauto|eauto]. }
  destruct ((o_type s =?s "") || (o_type s =?s "object")) eqn:E6.
  { assert (T : o_type s = "" \/ o_type s = "object") by (apply orb_true_iff in E6; rewrite !seqb_eq in E6; exact E6). clear E1 E2 E3 E4 E5 E6.
    assert (INV : schema_safe s -> forall ps n p, o_props s = Some ps -> In (n, p) ps -> has_target p \/ schema_safe p).
    { intros S. inversion S as [? X|? X A|? X A]; subst; [|rewrite X in T; destruct T; discriminate|exact A]. simpl in X. destruct T as [T|T]; rewrite T in X; intuition discriminate. }
    destruct (o_props s) as [ps|] eqn:PR; [|split; [intros _; apply ss_object; [exact T|congruence]|eauto]].
    transitivity (exists fs, each (convert_prop (o_required s)) ps = Ok fs).
    - destruct (each _ ps); split; intros [? X]; try discriminate; eexists; reflexivity.
    - rewrite each_iff. assert (ONE : forall x, In x ps -> ((exists b, convert_prop (o_required s) x = Ok b) <-> has_target (snd x) \/ schema_safe (snd x))).
      { intros [n p] I. specialize (HP ps n p eq_refl I). unfold convert_prop. cbn [fst snd]. destruct (refers_b p) as [[-> R]|[-> R]]; cbn [rbind]; [split; [auto|eauto]|].
        rewrite <- HP. split; [|intros [X|(ts & X)]; [contradiction|rewrite X; eexists; reflexivity]]. intros (b & H). apply rbind_Ok in H. destruct H as (ts & H & _). eauto. }
      split.
      + intros H. apply ss_object; [exact T|]. intros ps' n p E I. replace ps' with ps in I by congruence. apply (ONE (n, p) I). exact (H _ I).
      + intros S [n p] I. apply (ONE (n, p) I). exact (INV S ps n p eq_refl I). }
  split; [intros [? X]; discriminate|]. intros S. exfalso. apply orb_false_iff in E6. destruct E6 as [E6 E7].
  inversion S as [? X|? X A|? X A]; subst; [simpl in X|rewrite X in E3; discriminate|destruct X as [X|X]; rewrite X in *; discriminate].
  destruct X as [X|[X|[X|[X|[]]]]]; rewrite <- X in *; discriminate.
Qed.
Lemma output_iff s : (exists ts, output_type s = Ok ts) <-> out_safe s.
Proof.
  unfold output_type, out_safe. rewrite <- convert_iff. destruct (o_ref s =?s "") eqn:E; cbn [negb].
  - apply seqb_eq in E. split; [auto|intros [X|X]; [contradiction|exact X]].
  - split; [|eauto]. intros _. left. intros X. rewrite X in E. discriminate.
Qed.

(** ** Parameters *)
Lemma param_type_iff s : (exists ts, param_type s = Ok ts) <-> has_target s \/ In (o_type s) ["string"; "number"; "integer"; "array"; "boolean"].
Proof.
  unfold param_type. destruct (refers_b s) as [[-> R]|[-> R]]; [split; [auto|eauto]|]. unfold primitive_type.
  destruct (o_type s =?s "string") eqn:E1. { apply seqb_eq in E1. rewrite E1. split; [intros _; simpl; tauto|intros _; eexists; reflexivity]. }
  destruct (o_type s =?s "number") eqn:E2. { apply seqb_eq in E2. rewrite E2. split; [intros _; simpl; tauto|intros _; eexists; reflexivity]. }
  destruct (o_type s =?s "integer") eqn:E3. { apply seqb_eq in E3. rewrite E3. split; [intros _; simpl; tauto|intros _; eexists; reflexivity]. }
  destruct (o_type s =?s "array") eqn:E4. { apply seqb_eq in E4. rewrite E4. split; [intros _; simpl; tauto|intros _; eexists; reflexivity]. }
  destruct (o_type s =?s "object") eqn:E5. { apply seqb_eq in E5. rewrite E5. split; [intros (ts & X); discriminate|]. intros [X|X]; [contradiction|]. simpl in X. intuition discriminate. }
  destruct (o_type s =?s "boolean") eqn:E6. { apply seqb_eq in E6. rewrite E6. split; [intros _; simpl; tauto|intros _; eexists; reflexivity]. }
  split; [intros (ts & X); discriminate|]. intros [X|X]; [contradiction|]. simpl in X. repeat (destruct X as [X|X]; [rewrite <- X in *; discriminate|]). destruct X.
Qed.
Lemma param_iff path p : (exists r, convert_param path p = Ok r) <-> param_readable path p.
Proof.
  unfold convert_param, param_readable. rewrite identifier_letters, <- param_type_iff. set (nm := letters (op_pname p)).
  assert (SP : forall A h q isp (k : paramspec -> A), (exists r, (r <- (ts <- param_type (op_schema p) ;; Ok (mkParam h q isp (mkField nm (op_desc p) [] (op_req p) VNil ts))) ;; @Ok unit _ (k r)) = Ok r)
      <-> exists ts, param_type (op_schema p) = Ok ts).
  { intros A h q isp k. destruct (param_type (op_schema p)) as [ts| | |]; cbn [rbind]; split; intros [? X]; try discriminate; eauto. }
  destruct (op_in p =?s "query") eqn:E1. { apply seqb_eq in E1. rewrite E1, SP. split; [intros H; split; [discriminate|]; split; [discriminate|exact H]|tauto]. }
  destruct (op_in p =?s "path") eqn:E2.
  { apply seqb_eq in E2. rewrite E2. destruct (contains _ path) eqn:C.
    - rewrite SP. apply contains_spec in C. destruct C as (a & b & C). split; [|tauto]. intros H. split; [discriminate|]. split; [|exact H]. intros _. exists a, b. rewrite C, !append_assoc. reflexivity.
    - split; [intros [? X]; discriminate|]. intros (_ & X & _). exfalso. destruct (X eq_refl) as (a & b & Y).
      assert (Z : contains ("{" +++ nm +++ "}") path = true) by (apply contains_spec; exists a, b; rewrite Y, !append_assoc; reflexivity). congruence. }
  assert (NP : op_in p <> "path") by (intros X; rewrite X in E2; discriminate).
  destruct (op_in p =?s "header") eqn:E3. { apply seqb_eq in E3. rewrite E3, SP. split; [intros H; split; [discriminate|]; split; [discriminate|exact H]|tauto]. }
  destruct (op_in p =?s "cookie") eqn:E4. { apply seqb_eq in E4. split; [intros [? X]; discriminate|tauto]. }
  rewrite SP. split; [|tauto]. intros H. split; [intros X; rewrite X in E4; discriminate|]. split; [intros X; contradiction|exact H].
Qed.
Lemma params_iff path ps : (exists r, convert_params path ps = Ok r) <-> forall p, In p ps -> param_readable path p.
Proof.
  induction ps as [|p ps IH]; [split; [intros _ p []|intros _; eexists; reflexivity]|]. cbn [convert_params]. split.
  - intros (r & H). apply rbind_Ok in H. destruct H as ([i q] & P & H). apply rbind_Ok in H. destruct H as ([is qs] & R & _).
    intros x [<-|I]; [apply param_iff; eauto|]. apply IH; [eauto|exact I].
  - intros H. destruct (proj2 (param_iff path p) (H p (or_introl eq_refl))) as ([i q] & ->). destruct (proj2 IH (fun x I => H x (or_intror I))) as ([is qs] & ->).
    eexists. reflexivity.
Qed.

(** ** Answers *)
Lemma expected_iff k r : (exists e, convert_expected k r = Ok e) <-> expected_readable k r.
Proof.
  unfold convert_expected, expected_readable.
  assert (C : (exists z, (if negb (k =?s "default") && negb (contains "X" k) then match atoi k with Some z => Ok z | None => @Err unit Z tt end else Ok 200%Z) = Ok z)
     <-> (k = "default" \/ has_x k \/ exists z, int_text k z)).
  { destruct (k =?s "default") eqn:E; cbn [negb andb]; [apply seqb_eq in E; split; [auto|eauto]|].
    destruct (contains "X" k) eqn:X; cbn [negb]; [apply has_x_spec in X; split; [auto|eauto]|].
    destruct (atoi k) as [z|] eqn:A; [apply atoi_spec in A; split; eauto|]. split; [intros [? Y]; discriminate|]. intros [Y|[Y|(z & Y)]].
    - rewrite Y in E. discriminate.
    - apply has_x_spec in Y. congruence.
    - apply atoi_spec in Y. congruence. }
  assert (HH : (exists hs, convert_headers (or_headers r) = Ok hs) <-> forall h d s, In (h, (d, s)) (or_headers r) -> out_safe s).
  { rewrite convert_headers_each, each_iff. split.
    - intros H h d s I. destruct (H _ I) as (b & B). unfold convert_header in B. apply rbind_Ok in B. destruct B as (ts & T & _). apply output_iff. eauto.
    - intros H [h [d s]] I. destruct (proj2 (output_iff s) (H _ _ _ I)) as (ts & T). unfold convert_header. cbn [fst snd]. rewrite T. eexists. reflexivity. }
  assert (BB : (exists bs, match or_body r with
        | None => Ok []
        | Some s => ts <- output_type s ;; @Ok unit (list paramspec) [mkParam "" "" false (mkField "body" "" [] false VNil ts)]
        end = Ok bs) <-> forall s, or_body r = Some s -> out_safe s).
  { destruct (or_body r) as [s|]; [|split; [discriminate|eauto]]. split.
    - intros (bs & B). apply rbind_Ok in B. destruct B as (ts & T & _). intros s' E. injection E as <-. apply output_iff. eauto.
    - intros H. destruct (proj2 (output_iff s) (H s eq_refl)) as (ts & ->). eexists. reflexivity. }
  rewrite <- C, <- HH, <- BB. split.
  - intros (e & H). apply rbind_Ok in H. destruct H as (z & Z & H). apply rbind_Ok in H. destruct H as (hs & HS & H). apply rbind_Ok in H. destruct H as (bs & BS & _).
    split; [eauto|]. split; eauto.
  - intros ((z & ->) & (hs & ->) & (bs & E)). cbn [rbind]. rewrite E. eexists. reflexivity.
Qed.
Lemma exception_iff k r : (exists e, convert_exception k r = Ok e) <-> exception_readable k r.
Proof.
  unfold convert_exception, exception_readable.
  assert (B : (exists t, match or_body r with None => Ok "" | Some s => if negb (o_ref s =?s "") then Ok (oas_type_ref s) else @Panic unit string end = Ok t)
     <-> forall s, or_body r = Some s -> o_ref s <> "").
  { destruct (or_body r) as [s|]; [|split; [discriminate|eauto]]. destruct (o_ref s =?s "") eqn:E; cbn [negb].
    - apply seqb_eq in E. split; [intros [? X]; discriminate|]. intros H. exfalso. exact (H s eq_refl E).
    - split; [|eauto]. intros _ s' X. injection X as <-. intros Y. rewrite Y in E. discriminate. }
  assert (BZ : forall z, (exists e, (t <- match or_body r with None => Ok "" | Some s => if negb (o_ref s =?s "") then Ok (oas_type_ref s) else Panic end ;; @Ok unit _ (mkExc t (to_int32 z) (or_desc r) [])) = Ok e)
      <-> forall s, or_body r = Some s -> o_ref s <> "").
  { intros z. rewrite <- B. split; [intros (e & H); apply rbind_Ok in H; destruct H as (t & T & _); eauto|]. intros (t & T). rewrite T. eexists. reflexivity. }
  destruct (k =?s "default") eqn:E; cbn [rbind].
  { apply seqb_eq in E. change (atoi "0") with (Some 0%Z). cbv iota. rewrite BZ. split; [auto|tauto]. }
  assert (NK : k <> "default") by (intros X; rewrite X in E; discriminate).
  destruct (contains "X" k) eqn:X; cbn [rbind].
  { apply has_x_spec in X. split; [intros [? Y]; discriminate|]. intros [[Y|[Y _]] _]; contradiction. }
  assert (NX : ~ has_x k) by (intros Y; apply has_x_spec in Y; congruence).
  destruct (atoi k) as [z|] eqn:A.
  - rewrite BZ. apply atoi_spec in A. split; [|tauto]. intros H. split; [right; split; [exact NX|eauto]|exact H].
  - split; [intros [? Y]; discriminate|]. intros [[Y|[_ (z & Y)]] _]; [contradiction|]. apply atoi_spec in Y. congruence.
Qed.
Lemma exceptions_iff k rs : (exists xs, convert_exceptions k rs = Ok xs) <-> forall k' r, In (k', r) rs -> k' <> k -> exception_readable k' r.
Proof.
  rewrite convert_exceptions_each, each_iff. split.
  - intros H k' r I N. apply exception_iff. apply (H (k', r)). apply filter_In. split; [exact I|]. unfold not_key. cbn [fst].
    destruct (k' =?s k) eqn:E; [apply seqb_eq in E; contradiction|reflexivity].
  - intros H [k' r] I. apply filter_In in I. destruct I as [I N]. cbn [fst snd]. apply exception_iff. apply H; [exact I|]. intros ->. unfold not_key in N. cbn [fst] in N. rewrite seqb_refl in N. discriminate.
Qed.
Lemma path_iff path op mth : keys_once (oo_responses op) -> one_success op -> (exists h, convert_path path op mth = Ok h) <-> operation_readable path op.
Proof.
  intros KO OS. unfold convert_path, operation_readable. rewrite <- params_iff. destruct (convert_tags "" "" (oo_tags op)) as [rez tmp].
  assert (ES : forall k, expected_answer op k -> expected_status (oo_responses op) = k).
  { intros k [I [S|[-> N]]].
    - destruct (expected_status_cases (oo_responses op)) as [[J S']|[_ N]]; [exact (OS _ _ J I S' S)|exfalso; exact (N k I S)].
    - destruct (expected_status_cases (oo_responses op)) as [[J S']|[E _]]; [exfalso; exact (N _ J S')|exact E]. }
  split.
  - intros (h & H). apply rbind_Ok in H. destruct H as ([is qs] & P & H). split; [eauto|]. set (k := expected_status (oo_responses op)) in *.
    destruct (get k (oo_responses op)) as [r|] eqn:G; [|discriminate]. apply rbind_Ok in H. destruct H as (e & E & H). apply rbind_Ok in H. destruct H as (xs & X & _).
    apply (get_In _ _ _ KO) in G. exists k. split.
    + split; [apply in_map_iff; exists (k, r); auto|]. destruct (expected_status_cases (oo_responses op)) as [[_ S]|[D N]]; [left; exact S|right; auto].
    + intros k' r' I. split.
      * intros ->. assert (r' = r) by (apply (get_In _ _ _ KO) in G, I; congruence). subst r'. apply expected_iff. eauto.
      * apply (proj1 (exceptions_iff k (oo_responses op))); [eauto|exact I].
  - intros (([is qs] & ->) & k & EA & H). rewrite (ES k EA). cbn [rbind]. destruct EA as [I _]. apply in_map_iff in I. destruct I as ([k0 r] & E & I). cbn [fst] in E. subst k0.
    assert (G := I). apply (get_In _ _ _ KO) in G. rewrite G. destruct (proj2 (expected_iff k r) (proj1 (H k r I) eq_refl)) as (e & ->). cbn [rbind].
    destruct (proj2 (exceptions_iff k (oo_responses op))) as (xs & ->); [intros k' r' J; exact (proj2 (H k' r' J))|]. cbn [rbind]. eexists. reflexivity.
Qed.

(** ** The whole document *)
Definition plain_path (x : string * pathitem) : bool := negb (has_prefix "x-" (fst x)).
Lemma import_item_skip t pi mths : has_prefix "x-" t = true -> import_item t pi mths = Ok [].
Proof. intros X. induction mths as [|mth mths IH]; [reflexivity|]. cbn [import_item]. rewrite X. destruct (get mth pi); exact IH. Qed.
Lemma import_paths_sel ps : import_paths ps = each read_flat (flat_sel (filter plain_path ps)).
Proof.
  rewrite <- import_paths_flat.
  - induction ps as [|[t pi] ps IH]; [reflexivity|]. cbn [import_paths filter]. unfold plain_path at 1. cbn [fst]. destruct (has_prefix "x-" t) eqn:X; cbn [negb].
    + rewrite (import_item_skip _ _ _ X), IH. cbn [rbind]. destruct (import_paths (filter plain_path ps)); reflexivity.
    + cbn [import_paths]. rewrite IH. reflexivity.
  - intros x I. apply filter_In in I. destruct I as [_ P]. unfold plain_path in P. apply negb_true_iff in P. exact P.
Qed.
Lemma flat_sel_In ps t mth op : NoDup (map fst ps) -> (forall x, In x ps -> NoDup (map fst (snd x))) ->
  (In (t, (mth, op)) (flat_sel ps) <-> exists pi, In (t, pi) ps /\ In (mth, op) pi /\ In mth import_methods).
Proof.
  intros N K. unfold flat_sel. rewrite in_concat. split.
  - intros (l & L & I). apply in_map_iff in L. destruct L as ([t' pi] & <- & J). cbn [fst snd] in I. apply in_map_iff in I. destruct I as (x & E & I). injection E as -> ->.
    apply select_In in I. cbn [fst snd] in I. destruct I as [M G]. exists pi. split; [exact J|]. split; [|exact M]. apply (get_In _ _ _ (K _ J)). exact G.
  - intros (pi & J & I & M). eexists. split; [apply in_map; exact J|]. cbn [fst snd]. apply in_map. apply select_In. cbn [fst snd]. split; [exact M|]. apply (get_In _ _ _ (K _ J)). exact I.
Qed.
Lemma flat_sel_nodup ps : NoDup (map fst ps) -> NoDup (flat_sel ps).
Proof.
  induction ps as [|[t pi] ps IH]; intros N; [constructor|]. inversion N as [|? ? NI N']; subst. unfold flat_sel. cbn [map concat fst snd]. fold (flat_sel ps).
  assert (D : forall x, In x (flat_sel ps) -> In (fst x) (map fst ps)).
  { intros x I. unfold flat_sel in I. apply in_concat in I. destruct I as (l & L & I). apply in_map_iff in L. destruct L as ([t' pi'] & <- & J). cbn [fst snd] in I.
    apply in_map_iff in I. destruct I as (y & <- & _). cbn [fst]. apply (in_map fst) in J. exact J. }
  assert (A : NoDup (map (pair t) (select pi import_methods))).
  { apply FinFun.Injective_map_NoDup; [intros x y E; injection E as ->; reflexivity|]. apply (NoDup_map_inv fst). apply select_nodup. repeat constructor; simpl; intuition discriminate. }
  revert A. generalize (select pi import_methods). intros l A. induction l as [|y l IHl]; [apply IH; exact N'|]. cbn [map app] in *. inversion A as [|? ? NY A']; subst.
  constructor; [|apply IHl; exact A']. intros X. apply in_app_or in X. destruct X as [X|X]; [contradiction|]. apply NI. exact (D _ X).
Qed.
Lemma nodup_map_iff {A B} (f : A -> B) l : NoDup l -> (NoDup (map f l) <-> forall x y, In x l -> In y l -> f x = f y -> x = y).
Proof.
  intros N. induction N as [|a l NI N IH]; [split; [intros _ x y []|constructor]|]. cbn [map]. split.
  - intros H. inversion H as [|? ? NF H']; subst. assert (H2 := proj1 IH H'). intros x y [<-|X] [<-|Y] E; [reflexivity| | |exact (H2 x y X Y E)].
    + exfalso. apply NF. rewrite E. apply in_map. exact Y.
    + exfalso. apply NF. rewrite <- E. apply in_map. exact X.
  - intros H. constructor; [|apply IH; intros x y X Y; apply H; right; assumption]. intros X. apply in_map_iff in X. destruct X as (y & E & Y).
    apply NI. rewrite (H a y (or_introl eq_refl) (or_intror Y) (eq_sym E)). exact Y.
Qed.
Lemma kept_spec n s : def_kept n s <-> (valid_sadl_name n s =?s "") = false /\ valid_sadl_name n s = n.
Proof.
  unfold def_kept, valid_sadl_name. destruct (n =?s "Timestamp") eqn:E1.
  - apply seqb_eq in E1. subst n. destruct (o_type s =?s "string") eqn:T.
    + apply seqb_eq in T. split; [intros (_ & _ & H); exfalso; exact (H eq_refl T)|intros [X _]; discriminate].
    + split; [intros _; split; reflexivity|]. intros _. split; [discriminate|]. split; [discriminate|]. intros _ X. rewrite X in T. discriminate.
  - assert (N1 : n <> "Timestamp") by (intros X; rewrite X in E1; discriminate). destruct (n =?s "Decimal") eqn:E2.
    + apply seqb_eq in E2. split; [intros (_ & H & _); contradiction|intros [X _]; discriminate].
    + assert (N2 : n <> "Decimal") by (intros X; rewrite X in E2; discriminate). destruct (n =?s "") eqn:E3.
      * apply seqb_eq in E3. split; [intros (H & _); contradiction|intros [X _]; discriminate].
      * split; [auto|]. intros _. split; [intros X; rewrite X in E3; discriminate|]. split; [exact N2|]. intros X. contradiction.
Qed.
Lemma kept_or n s : def_kept n s \/ (valid_sadl_name n s =?s "") = true.
Proof.
  destruct (valid_sadl_name n s =?s "") eqn:V; [auto|]. left. apply kept_spec. split; [exact V|].
  unfold valid_sadl_name in *. destruct (n =?s "Timestamp"), (o_type s =?s "string"), (n =?s "Decimal"); try reflexivity; discriminate.
Qed.
Lemma def_iff all s : keys_once all ->
  (exists ts, (if negb (oas_type_ref s =?s "") then match get (oas_type_ref s) all with Some d => convert_oas d | None => Panic end else convert_oas s) = Ok ts) <-> def_safe all s.
Proof.
  intros N. unfold def_safe. destruct (refers_b s) as [[-> R]|[-> R]].
  - assert (R' := R). apply refers_spec in R'. split.
    + intros (ts & H). destruct (get (oas_type_ref s) all) as [d|] eqn:G; [|discriminate]. left. exists (oas_type_ref s), d. split; [apply type_ref_spec; auto|].
      split; [apply (get_In _ _ _ N); exact G|]. apply convert_iff. eauto.
    + intros [(n & d & RT & I & S)|[X _]]; [|contradiction]. apply type_ref_spec in RT. destruct RT as [-> _]. apply (get_In _ _ _ N) in I. rewrite I. apply convert_iff. exact S.
  - rewrite convert_iff. split; [auto|]. intros [(n & d & RT & _)|[_ S]]; [exfalso; apply R; exists n; exact RT|exact S].
Qed.
Lemma types_iff all ss : keys_once all -> (exists tds, import_types all ss = Ok tds) <-> forall n s, In (n, s) ss -> def_kept n s -> def_safe all s.
Proof.
  intros N. induction ss as [|[n s] ss IH]; [split; [intros _ n s []|intros _; eexists; reflexivity]|]. cbn [import_types].
  destruct (kept_or n s) as [K|V].
  - assert (K' := K). apply kept_spec in K'. destruct K' as [V E]. rewrite V. split.
    + intros (tds & H). apply rbind_Ok in H. destruct H as (ts & T & H). apply rbind_Ok in H. destruct H as (l & L & _).
      intros n' s' [X|X]; [injection X as <- <-; intros _; apply (def_iff all s N); eauto|]. apply IH; [eauto|exact X].
    + intros H. destruct (proj2 (def_iff all s N) (H n s (or_introl eq_refl) K)) as (ts & ->). destruct (proj2 IH (fun n' s' X => H n' s' (or_intror X))) as (l & ->). eexists. reflexivity.
  - rewrite V, IH. split; [|intros H n' s' X; apply H; right; exact X]. intros H n' s' [X|X]; [|apply H; exact X]. injection X as <- <-. intros K. apply kept_spec in K. destruct K as [V' _]. congruence.
Qed.
Lemma types_names all ss tds : import_types all ss = Ok tds -> forall n, In n (map td_name tds) <-> exists s, In (n, s) ss /\ def_kept n s.
Proof.
  revert tds. induction ss as [|[n s] ss IH]; intros tds H x; cbn [import_types] in H; [injection H as <-; split; [intros []|intros (s & [] & _)]|].
  destruct (kept_or n s) as [K|V].
  - assert (K' := K). apply kept_spec in K'. destruct K' as [V E]. rewrite V in H. apply rbind_Ok in H. destruct H as (ts & _ & H). apply rbind_Ok in H. destruct H as (l & L & Q). injection Q as <-.
    cbn [map td_name]. rewrite E. split.
    + intros [<-|I]; [exists s; split; [left; reflexivity|exact K]|]. apply (IH _ L) in I. destruct I as (s' & I & K'). exists s'. split; [right; exact I|exact K'].
    + intros (s' & [X|X] & K'); [left; congruence|]. right. apply (IH _ L). eauto.
  - rewrite V in H. rewrite (IH _ H). split; [intros (s' & I & K); exists s'; split; [right; exact I|exact K]|].
    intros (s' & [X|X] & K); [|eauto]. injection X as <- <-. apply kept_spec in K. destruct K as [V' _]. congruence.
Qed.
Lemma convert_path_id path op mth h : convert_path path op mth = Ok h -> h_name h = oo_id op.
Proof.
  unfold convert_path. destruct (convert_tags _ _ _). intros H. apply rbind_Ok in H. destruct H as ([is qs] & _ & H). destruct (get _ _); [|discriminate].
  apply rbind_Ok in H. destruct H as (e & _ & H). apply rbind_Ok in H. destruct H as (xs & _ & E). injection E as <-. reflexivity.
Qed.

Lemma readable_iff name i doc : keys_once (od_paths doc) -> doc_maps doc -> doc_one_success doc ->
  ((exists m, to_sadl name i doc = Ok m) <-> doc_readable doc).
Proof.
  intros KP [KS KI] OS. set (ops := flat_sel (filter plain_path (od_paths doc))).
  assert (FN : NoDup (map fst (filter plain_path (od_paths doc)))).
  { clear - KP. unfold keys_once in KP. induction (od_paths doc) as [|x l IH]; [constructor|]. inversion KP as [|? ? NI N]; subst. cbn [filter]. destruct (plain_path x); [|exact (IH N)].
    cbn [map]. constructor; [|exact (IH N)]. intros X. apply NI. apply in_map_iff in X. destruct X as (y & E & Y). apply filter_In in Y. rewrite <- E. apply in_map. exact (proj1 Y). }
  assert (FK : forall x, In x (filter plain_path (od_paths doc)) -> NoDup (map fst (snd x))).
  { intros [t pi] I. apply filter_In in I. exact (proj1 (KI t pi (proj1 I))). }
  assert (OPS : forall t mth op, In (t, (mth, op)) ops <-> op_read doc t mth op).
  { intros t mth op. unfold ops. rewrite (flat_sel_In _ t mth op FN FK). unfold op_read, doc_op.
    assert (X : (~ exists r, t = "x-" +++ r) <-> has_prefix "x-" t = false).
    { rewrite <- has_prefix_spec. destruct (has_prefix "x-" t); split; intros X; congruence. }
    rewrite X. split.
    - intros (pi & I & J & M). apply filter_In in I. destruct I as [I P]. unfold plain_path in P. apply negb_true_iff in P. cbn [fst] in P. split; [eauto|]. split; [exact M|exact P].
    - intros ((pi & I & J) & M & P). exists pi. split; [|auto]. apply filter_In. split; [exact I|]. unfold plain_path. cbn [fst]. rewrite P. reflexivity. }
  assert (NO : NoDup ops) by (apply flat_sel_nodup; exact FN).
  assert (HT : (exists hs, import_paths (od_paths doc) = Ok hs) <-> forall p mth op, op_read doc p mth op -> operation_readable p op).
  { rewrite import_paths_sel, each_iff. fold ops.
    assert (ONE : forall p mth op, op_read doc p mth op -> ((exists h, convert_path p op mth = Ok h) <-> operation_readable p op)).
    { intros p mth op (D & _). apply path_iff; [|exact (OS _ _ _ D)]. destruct D as (pi & I & J). exact (proj2 (KI _ _ I) _ _ J). }
    split.
    - intros H p mth op R. apply (ONE p mth op R). exact (H (p, (mth, op)) (proj2 (OPS _ _ _) R)).
    - intros H [p [mth op]] I. apply OPS in I. apply (ONE p mth op I). exact (H _ _ _ I). }
  assert (HD : forall hs, import_paths (od_paths doc) = Ok hs ->
    (NoDup (map h_name hs) <-> forall p mth op p' mth' op', op_read doc p mth op -> op_read doc p' mth' op' -> oo_id op = oo_id op' -> p = p' /\ mth = mth')).
  { intros hs H. rewrite import_paths_sel in H. fold ops in H. apply each_Ok in H.
    assert (E : map h_name hs = map (fun x => oo_id (snd (snd x))) ops).
    { clear - H. induction H as [|[p [mth op]] h ops hs C F IH]; [reflexivity|]. cbn [map snd]. rewrite IH. f_equal. exact (convert_path_id _ _ _ _ C). }
    rewrite E, (nodup_map_iff _ _ NO). split.
    - intros Q p mth op p' mth' op' R R' EQ. apply OPS in R, R'. specialize (Q _ _ R R' EQ). injection Q as -> -> _. auto.
    - intros Q [p [mth op]] [p' [mth' op']] I I' EQ. cbn [snd] in EQ. assert (R := proj1 (OPS _ _ _) I). assert (R' := proj1 (OPS _ _ _) I'). destruct (Q _ _ _ _ _ _ R R' EQ) as [-> ->].
      f_equal. f_equal. destruct R as ((pi & A & B) & _), R' as ((pi' & A' & B') & _).
      assert (pi' = pi) by (apply (get_In _ _ _ KP) in A, A'; congruence). subst pi'. assert (K := proj1 (KI _ _ A)). apply (get_In _ _ _ K) in B, B'. congruence. }
  unfold to_sadl, import_schema, doc_readable. split.
  - intros (m & H). apply rbind_Ok in H. destruct H as (sch & S & H). apply rbind_Ok in S. destruct S as (tds & T & S). apply rbind_Ok in S. destruct S as (hs & HS & S). injection S as <-.
    destruct (new_model _) as [m'| | |] eqn:NM; try discriminate. apply (proj2 (proj2 (new_model_iff _))) in NM. destruct NM as (_ & NB & NH). cbn [sc_types sc_http] in NB, NH.
    split; [|split].
    + intros n s I K. split; [exact (proj1 (types_iff _ _ KS) (ex_intro _ tds T) n s I K)|]. assert (X : In n (map td_name tds)) by (apply (types_names _ _ _ T); eauto).
      apply in_map_iff in X. destruct X as (td & <- & J). exact (NB td J).
    + apply HT. eauto.
    + apply (HD hs HS). exact NH.
  - intros (D & O & U). destruct (proj2 (types_iff (od_schemas doc) (od_schemas doc) KS)) as (tds & T); [intros n s I K; exact (proj1 (D n s I K))|].
    destruct (proj2 HT O) as (hs & HS). rewrite T, HS. cbn [rbind]. match goal with |- context [new_model ?s] => destruct (proj1 (new_model_iff s)) as (m0 & M0) end.
    + split; [exact (proj1 (import_types_nodup _ _ _ KS T))|]. cbn [sc_types sc_http]. split; [|apply (HD hs HS); exact U].
      intros td J. apply (in_map td_name) in J. apply (types_names _ _ _ T) in J. destruct J as (s & I & K). exact (proj2 (D _ _ I K)).
    + rewrite M0. eauto.
Qed.
