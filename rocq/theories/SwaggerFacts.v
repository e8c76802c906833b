(** Facts about Swagger.v: the translation to OpenAPI 3, and when it crashes. *)
From Verif Require Import GoStr Outcome Value Data Schema Scalars SpecTime SpecModel ModelFacts ValidateFacts SpecPV SpecMisc SpecGen Misc Model OpenApi OpenApiImport SpecOpenApi SpecImport SpecOpenData Swagger SpecSwagger.
From Coq Require Import Lia.

(** ** Looking things up *)
Lemma assoc_In_once {A} (k : string) (x : A) l : keys_once l -> In (k, x) l -> assoc k l = Some x.
Proof.
  unfold keys_once. induction l as [|[j y] l IH]; [intros _ []|]. intros N [E|I0].
  - injection E as -> ->. simpl. now rewrite seqb_refl.
  - simpl. inversion N as [|? ? NI ND]; subst. destruct (k =?s j) eqn:E.
    + apply seqb_eq in E as ->. destruct NI. apply in_map_iff. now exists (j, x).
    + now apply IH.
Qed.
Lemma assoc_Some_In {A} (k : string) (x : A) l : assoc k l = Some x -> In (k, x) l.
Proof.
  induction l as [|[j y] l IH]; simpl; [discriminate|]. destruct (k =?s j) eqn:E.
  - intros [= ->]. apply seqb_eq in E as ->. now left.
  - intros H. right. now apply IH.
Qed.
Lemma json_once l : json (VMap l) -> keys_once l.
Proof. now inversion 1. Qed.
Lemma json_at v k x : json v -> at_key v k x -> json x.
Proof.
  intros J (l & -> & I0). inversion J as [| | | | |? _ F]; subst. rewrite Forall_forall in F. exact (F _ I0).
Qed.
Lemma json_In l x : json (VArr l) -> In x l -> json x.
Proof. inversion 1 as [| | | |? F|]; subst. rewrite Forall_forall in F. auto. Qed.
Lemma get_at v k x : json v -> at_key v k x -> sw_get v k = x.
Proof.
  intros J (l & -> & I0). unfold sw_get. simpl. now rewrite (assoc_In_once k x l (json_once _ J) I0).
Qed.
Lemma at_get v k x : sw_get v k = x -> x <> VNil -> at_key v k x.
Proof.
  unfold sw_get. intros E N. destruct v as [| | | | | | | | | | | | |l]; simpl in E; try congruence.
  destruct (assoc k l) as [y|] eqn:A; [|congruence]. subst y. exists l. split; [reflexivity|]. now apply assoc_Some_In.
Qed.
Lemma at_fun v k x y : json v -> at_key v k x -> at_key v k y -> x = y.
Proof. intros J A B. now rewrite <- (get_at v k x J A), <- (get_at v k y J B). Qed.
Lemma json_get v k : json v -> json (sw_get v k).
Proof.
  intros J. destruct (sw_get v k) eqn:E; try (apply (json_at v k); [exact J|]; apply at_get; [exact E|discriminate]). constructor.
Qed.
Lemma has_iff v k : json v -> (sw_has v k = true <-> present v k).
Proof.
  intros J. unfold sw_has. split.
  - intros H. exists (sw_get v k). split; [apply at_get; [reflexivity|]|]; destruct (sw_get v k); discriminate.
  - intros (x & A & N). rewrite (get_at v k x J A). destruct x; congruence.
Qed.
Lemma has_false v k : json v -> (sw_has v k = false <-> ~ present v k).
Proof.
  intros J. rewrite <- (has_iff v k J). destruct (sw_has v k); split; congruence.
Qed.
Lemma text_iff v k s : json v -> (text_at v k s <-> sw_string v k = s).
Proof.
  intros J. unfold text_at, sw_string. split.
  - intros [A|[-> N]]; [now rewrite (get_at v k _ J A)|].
    destruct (sw_get v k) as [| | |t|t| | | | | | | | |] eqn:E; try reflexivity.
    + destruct (N t). apply at_get; [exact E|discriminate].
    + pose proof (json_get v k J) as Q. rewrite E in Q. inversion Q.
  - intros H. destruct (sw_get v k) as [| | |t|t| | | | | | | | |] eqn:E; simpl in H; subst s;
      try (right; split; [reflexivity|]; intros u A; pose proof (get_at v k _ J A); congruence).
    + left. apply at_get; [exact E|discriminate].
    + pose proof (json_get v k J) as Q. rewrite E in Q. inversion Q.
Qed.
Lemma text_is_iff x s : json x -> (text_is x s <-> as_string x = s).
Proof.
  intros J. unfold text_is. split.
  - intros [-> |[-> N]]; [reflexivity|]. destruct x; try reflexivity; [now destruct (N s)|inversion J].
  - intros <-. destruct x; try (right; split; [reflexivity|discriminate]); [now left|inversion J].
Qed.
Lemma texts_is_iff l : Forall json l -> forall ss, Forall2 text_is l ss <-> map as_string l = ss.
Proof.
  induction 1 as [|x l J F IH]; intros ss; simpl; split.
  - now inversion 1.
  - intros <-. constructor.
  - inversion 1; subst. f_equal; [now apply text_is_iff|now apply IH].
  - intros <-. constructor; [now apply text_is_iff|now apply IH].
Qed.
Lemma array_iff v k l : json v -> (array_at v k l <-> as_array (sw_get v k) = l).
Proof.
  intros J. unfold array_at. split.
  - intros [A|[-> N]]; [now rewrite (get_at v k _ J A)|].
    destruct (sw_get v k) as [| | | | | | | | | | | |m|] eqn:E; try reflexivity.
    destruct (N m). apply at_get; [exact E|discriminate].
  - intros <-. destruct (sw_get v k) as [| | | | | | | | | | | |m|] eqn:E;
      try (right; split; [reflexivity|]; intros u A; pose proof (get_at v k _ J A); congruence).
    left. apply at_get; [exact E|discriminate].
Qed.
Lemma map_at_iff v k l : json v -> (map_at v k l <-> sw_map v k = l).
Proof.
  intros J. unfold map_at, sw_map. split.
  - intros [A|[-> N]]; [now rewrite (get_at v k _ J A)|].
    destruct (sw_get v k) as [| | | | | | | | | | | | |m] eqn:E; try reflexivity.
    destruct (N m). apply at_get; [exact E|discriminate].
  - intros <-. destruct (sw_get v k) as [| | | | | | | | | | | | |m] eqn:E;
      try (right; split; [reflexivity|]; intros u A; pose proof (get_at v k _ J A); congruence).
    left. apply at_get; [exact E|discriminate].
Qed.
Lemma json_array v k : json v -> Forall json (as_array (sw_get v k)).
Proof.
  intros J. pose proof (json_get v k J) as Q. destruct (sw_get v k); simpl; try constructor. now inversion Q.
Qed.
Lemma json_map v k : json v -> keys_once (sw_map v k) /\ forall n x, In (n, x) (sw_map v k) -> json x.
Proof.
  intros J. pose proof (json_get v k J) as Q. unfold sw_map. destruct (sw_get v k); try (split; [constructor|intros ? ? []]).
  inversion Q as [| | | | |? O F]; subst. split; [exact O|]. intros n x I0. rewrite Forall_forall in F. exact (F _ I0).
Qed.
Lemma texts_iff v k ss : json v -> (texts_at v k ss <-> sw_strings v k = ss).
Proof.
  intros J. unfold texts_at, sw_strings. rewrite <- (texts_is_iff _ (json_array v k J)). split.
  - intros [(l & A & F)|[-> N]].
    + now rewrite (get_at v k _ J A).
    + assert (array_at v k []) as Q by (right; auto). apply (array_iff v k [] J) in Q. rewrite Q. constructor.
  - intros F. assert (array_at v k (as_array (sw_get v k))) as [A|[E N]] by now apply array_iff.
    + left. eexists. split; [exact A|exact F].
    + right. rewrite E in F. inversion F. auto.
Qed.
Lemma flag_iff v k b : json v -> (flag_at v k b <-> as_bool (sw_get v k) = b).
Proof.
  intros J. unfold flag_at.
  assert (as_bool (sw_get v k) = true <-> exists x, at_key v k x /\ ~ In x [VNil; VBool false; VStr "false"]) as ->%iff_sym.
  - split.
    + intros H. exists (sw_get v k). split.
      * apply at_get; [reflexivity|]. intros E. rewrite E in H. discriminate.
      * intros [E|[E|[E|[]]]]; rewrite <- E in H; discriminate.
    + intros (x & A & N). rewrite (get_at v k x J A). destruct x; simpl in *; try reflexivity; try tauto.
      * destruct b0; [reflexivity|tauto].
      * destruct (s =?s "false") eqn:E; [|reflexivity]. apply seqb_eq in E as ->. tauto.
  - destruct (as_bool (sw_get v k)), b; intuition congruence.
Qed.

(** ** Numbers *)
Definition trunc (m e : Z) : Z := if (0 <=? e)%Z then (m * 2 ^ e)%Z else Z.quot m (2 ^ (- e)).
Lemma le_below z m e : dec_le (DFin z 0) (DFin m e) <-> (if (0 <=? e)%Z then z <= m * 2 ^ e else z * 2 ^ (- e) <= m)%Z.
Proof.
  rewrite dec_le_min. destruct (Z.leb_spec 0 e) as [H|H].
  - rewrite Z.min_l by lia. replace (0 - 0)%Z with 0%Z by lia. rewrite Z.sub_0_r. change (2 ^ 0)%Z with 1%Z. lia.
  - rewrite Z.min_r by lia. replace (e - e)%Z with 0%Z by lia. change (2 ^ 0)%Z with 1%Z. rewrite Z.sub_0_l. lia.
Qed.
Lemma le_above z m e : dec_le (DFin m e) (DFin z 0) <-> (if (0 <=? e)%Z then m * 2 ^ e <= z else m <= z * 2 ^ (- e))%Z.
Proof.
  rewrite dec_le_min. destruct (Z.leb_spec 0 e) as [H|H].
  - rewrite Z.min_r by lia. replace (0 - 0)%Z with 0%Z by lia. rewrite Z.sub_0_r. change (2 ^ 0)%Z with 1%Z. lia.
  - rewrite Z.min_l by lia. replace (e - e)%Z with 0%Z by lia. change (2 ^ 0)%Z with 1%Z. rewrite Z.sub_0_l. lia.
Qed.
Lemma int_part_iff m e z : int_part (DFin m e) z <-> trunc m e = z.
Proof.
  unfold int_part, trunc. rewrite !le_below, !le_above. destruct (Z.leb_spec 0 e) as [H|H].
  - assert (0 < 2 ^ e)%Z by (apply Z.pow_pos_nonneg; lia). lia.
  - assert (0 < 2 ^ (- e))%Z as P by (apply Z.pow_pos_nonneg; lia). generalize dependent (2 ^ (- e))%Z. intros p P.
    rewrite Z.mul_0_l. destruct (Z_le_gt_dec 0 m) as [M|M].
    + pose proof (Z.quot_rem' m p) as Q. pose proof (Z.rem_bound_pos m p M P) as R.
      generalize dependent (m ÷ p)%Z. generalize dependent (Z.rem m p). intros r R q Q.
      split; [|intros <-; left; nia]. intros [(_ & A & B)|[A _]]; [|lia].
      assert (~ (q + 1 <= z))%Z by nia. assert (~ (z + 1 <= q))%Z by nia. lia.
    + pose proof (Z.quot_rem' m p) as Q. assert (- p < Z.rem m p <= 0)%Z as R by (apply Z.rem_bound_pos_neg; lia).
      generalize dependent (m ÷ p)%Z. generalize dependent (Z.rem m p). intros r R q Q.
      split; [|intros <-; right; nia]. intros [(A & _)|(_ & A & B)]; [lia|].
      assert (~ (q + 1 <= z))%Z by nia. assert (~ (z + 1 <= q))%Z by nia. lia.
Qed.
Lemma unsigned_iff z w : unsigned64 z w <-> to_uint64 z = w.
Proof.
  unfold unsigned64, to_uint64. split.
  - intros [R [k ->]]. rewrite <- (Z.mod_add z k) by lia. now apply Z.mod_small.
  - intros <-. split; [apply Z.mod_pos_bound; lia|]. exists (- (z / 2 ^ 64))%Z. rewrite Z.mod_eq by lia. lia.
Qed.
Lemma number_iff v k o : json v -> (number_at v k o <-> (if sw_has v k then Some (as_float64 (sw_get v k)) else None) = o).
Proof.
  intros J. unfold number_at. destruct (sw_has v k) eqn:H.
  - apply (has_iff v k J) in H as (x & A & N). rewrite (get_at v k x J A). split.
    + intros [(_ & P)|[(d & B & ->)|(-> & y & B & _ & F)]].
      * destruct P. now exists x.
      * now rewrite (at_fun v k _ _ J A B).
      * rewrite (at_fun v k _ _ J A B). destruct y; try reflexivity. now destruct (F d).
    + intros <-. destruct x as [| | | | | | | | | | |d| |]; try (right; right; split; [reflexivity|]; eexists; split; [exact A|]; split; [discriminate|discriminate]).
      * congruence.
      * right; left. exists d. auto.
  - apply (has_false v k J) in H. split.
    + intros [(-> & _)|[(d & B & _)|(_ & y & B & N & _)]]; [reflexivity| |]; destruct H; eexists; (split; [exact B|]); congruence.
    + intros <-. now left.
Qed.
Lemma length_iff v k o : json v -> (length_at v k o <-> (if sw_has v k then Some (to_uint64 (as_int64 (sw_get v k))) else None) = o).
Proof.
  intros J. unfold length_at. pose proof (number_iff v k) as NI.
  assert (as_int64 (sw_get v k) = match as_float64 (sw_get v k) with DFin m e => trunc m e | _ => 0%Z end) as ->.
  { destruct (sw_get v k) as [| | | | | | | | | | |[m e|]| |]; reflexivity. }
  assert (exists m e, as_float64 (sw_get v k) = DFin m e) as (m & e & E).
  { pose proof (json_get v k J) as Q. destruct (sw_get v k); simpl; try (exists 0%Z, 0%Z; reflexivity). inversion Q; subst. eauto. }
  rewrite E in *. split.
  - intros [[-> N]|(d & z & w & N & I0 & U & ->)]; apply (NI _ J) in N; destruct (sw_has v k); try discriminate; [reflexivity|].
    injection N as <-. apply int_part_iff in I0 as ->. apply unsigned_iff in U as ->. reflexivity.
  - intros <-. destruct (sw_has v k) eqn:H.
    + right. exists (DFin m e), (trunc m e), (to_uint64 (trunc m e)). split; [|split; [|split; [|reflexivity]]].
      * apply (NI _ J). reflexivity.
      * now apply int_part_iff.
      * now apply unsigned_iff.
    + left. split; [reflexivity|]. now apply (NI _ J).
Qed.

(** ** References *)
Lemma moved_replace n s : String.length s < n -> moved s (replace_all n definitions_prefix schema_prefix s).
Proof.
  revert s. induction n as [|n IH]; intros s L; [lia|]. cbn [replace_all].
  destruct (has_prefix definitions_prefix s) eqn:P.
  - apply has_prefix_spec in P as [r ->]. rewrite sdrop_append. apply mv_hit. apply IH.
    rewrite append_length in L. change (String.length definitions_prefix) with 14 in L. lia.
  - destruct s as [|c s]; [constructor|]. apply mv_skip.
    + intros [r E]. assert (has_prefix definitions_prefix (String c s) = true) by (apply has_prefix_spec; now exists r). congruence.
    + apply IH. simpl in L. lia.
Qed.
Lemma moved_fun s t u : moved s t -> moved s u -> t = u.
Proof.
  intros M. revert u. induction M as [|s t M IH|c s t N M IH]; intros u H.
  - inversion H; reflexivity.
  - remember ("#/definitions/" +++ s) as w eqn:W. destruct H as [|s' t' M'|c s' t' N' M'].
    + discriminate.
    + apply append_inj_l in W as ->. f_equal. now apply IH.
    + destruct N'. now exists s.
  - remember (String c s) as w eqn:W. destruct H as [|s' t' M'|c' s' t' N' M'].
    + discriminate.
    + destruct N. exists s'. now rewrite W.
    + injection W as -> ->. f_equal. now apply IH.
Qed.
Lemma moved_iff s t : moved s t <-> v3_ref s = t.
Proof.
  unfold v3_ref. pose proof (moved_replace (S (String.length s)) s ltac:(lia)) as M. split.
  - intros H. exact (moved_fun s _ _ M H).
  - now intros <-.
Qed.

(** ** Schemas *)
Lemma v3_schema_map l : v3_schema (VMap l) =
  if sw_string (VMap l) "type" =?s "object" then
    ps <- v3_schemas (sw_map (VMap l) "properties") ;;
    Ok (mkOas "" "object" "" (sw_string (VMap l) "description") "" None None 0%Z None None None None (Some ps) (sw_strings (VMap l) "required") [])
  else if sw_string (VMap l) "type" =?s "array" then
    i <- v3_schema (sw_get (VMap l) "items") ;;
    Ok (mkOas "" "array" "" (sw_string (VMap l) "description") "" None None 0%Z None None (Some i) None None (sw_strings (VMap l) "required") [])
  else v3_leaf (VMap l).
Proof.
  cbn [v3_schema]. destruct (sw_string (VMap l) "type" =?s "object").
  - f_equal. unfold sw_map, sw_get. cbn [as_data d_get]. induction l as [|[k x] l IH]; [reflexivity|].
    cbn [assoc]. destruct ("properties" =?s k); [|exact IH]. destruct x; try reflexivity.
  - destruct (sw_string (VMap l) "type" =?s "array"); [|reflexivity]. f_equal. unfold sw_get. cbn [as_data d_get].
    induction l as [|[k x] l IH]; [reflexivity|]. cbn [assoc]. destruct ("items" =?s k); [reflexivity|exact IH].
Qed.
Lemma type_cases t : t = "object" \/ t = "array" \/ In t plain_types \/ ~ In t ("object" :: "array" :: plain_types).
Proof.
  destruct (t =?s "object") eqn:A; [apply seqb_eq in A; auto|]. destruct (t =?s "array") eqn:B; [apply seqb_eq in B; auto|].
  destruct (str_mem t plain_types) eqn:C; [apply str_mem_In in C; auto|]. right. right. right.
  intros [H|[H|H]]; [subst; discriminate..|]. apply str_mem_In in H. congruence.
Qed.
Lemma text_map v k s : text_at v k s -> s <> "" -> exists l, v = VMap l.
Proof. intros [(l & -> & _)|[-> _]]; [eauto|congruence]. Qed.
Lemma present_map v k : present v k -> exists l, v = VMap l.
Proof. intros (x & (l & -> & _) & _). eauto. Qed.
Lemma text_fun v k s t : json v -> text_at v k s -> text_at v k t -> s = t.
Proof. intros J A B. apply (text_iff v k _ J) in A, B. congruence. Qed.
Lemma leaf_not v t : sw_string v "type" = t -> t <> "object" -> t <> "array" -> forall l, v = VMap l -> v3_schema v = v3_leaf v.
Proof.
  intros E N1 N2 l ->. rewrite v3_schema_map, E. now rewrite (proj2 (seqb_neq _ _) N1), (proj2 (seqb_neq _ _) N2).
Qed.

Scheme v3_mind := Minimality for v3 Sort Prop with v3_all_mind := Minimality for v3_all Sort Prop.
Combined Scheme v3_mutind from v3_mind, v3_all_mind.
Ltac texts J := repeat match goal with
  | H : text_at ?v ?k ?s |- _ => apply (text_iff v k s J) in H
  | H : texts_at ?v ?k ?s |- _ => apply (texts_iff v k s J) in H
  | H : length_at ?v ?k ?s |- _ => apply (length_iff v k s J) in H
  | H : number_at ?v ?k ?s |- _ => apply (number_iff v k s J) in H
  | H : map_at ?v ?k ?s |- _ => apply (map_at_iff v k s J) in H
  | H : present ?v ?k |- _ => apply (has_iff v k J) in H
  | H : moved ?v ?k |- _ => apply (moved_iff v k) in H
  end.
Lemma v3_sound : (forall v s, v3 v s -> json v -> v3_schema v = Ok s)
  /\ (forall l ss, v3_all l ss -> (forall n x, In (n, x) l -> json x) -> v3_schemas l = Ok ss).
Proof.
  apply v3_mutind.
  - reflexivity.
  - intros v d req l ps T D R M _ IH J. destruct (text_map _ _ _ T ltac:(discriminate)) as [l' ->]. texts J.
    rewrite v3_schema_map, T. change ("object" =?s "object") with true. cbv iota. rewrite M, IH; [cbn [rbind]; congruence|].
    subst l. now apply json_map.
  - intros v d req x i T D R A _ IH J. destruct (text_map _ _ _ T ltac:(discriminate)) as [l' ->]. texts J.
    rewrite v3_schema_map, T. change ("array" =?s "object") with false. change ("array" =?s "array") with true. cbv iota.
    rewrite (get_at _ _ _ J A), IH; [cbn [rbind]; congruence|]. exact (json_at _ _ _ J A).
  - intros v d req f p lo hi en T D R F P L H N J. destruct (text_map _ _ _ T ltac:(discriminate)) as [l ->]. texts J.
    rewrite (leaf_not _ _ T ltac:(discriminate) ltac:(discriminate) l eq_refl). unfold v3_leaf. rewrite T, D, R, F, P, H, N. change ("string" =?s "string") with true. cbv iota.
    rewrite <- L. destruct (sw_has (VMap l) "minLength"), en; reflexivity.
  - intros v t d req f lo hi T I0 D R F L H J.
    assert (t <> "" /\ t <> "object" /\ t <> "array" /\ t <> "string") as (N0 & N1 & N2 & N3) by (destruct I0 as [<-|[<-|[]]]; repeat split; discriminate).
    destruct (text_map _ _ _ T N0) as [l ->]. texts J.
    rewrite (leaf_not _ _ T N1 N2 l eq_refl). unfold v3_leaf. rewrite T, D, R, F, L, H. rewrite (proj2 (seqb_neq _ _) N3).
    now destruct I0 as [<-|[<-|[]]].
  - intros v d req T D R J. destruct (text_map _ _ _ T ltac:(discriminate)) as [l ->]. texts J.
    rewrite (leaf_not _ _ T ltac:(discriminate) ltac:(discriminate) l eq_refl). unfold v3_leaf. now rewrite T, D, R.
  - intros v t d req r r' T N P D R F M J. destruct (present_map _ _ P) as [l ->]. texts J.
    assert (t <> "object" /\ t <> "array" /\ t <> "string" /\ t <> "integer" /\ t <> "number" /\ t <> "boolean") as (N1 & N2 & N3 & N4 & N5 & N6)
      by (repeat split; intros ->; apply N; simpl; tauto).
    rewrite (leaf_not _ _ T N1 N2 l eq_refl). unfold v3_leaf. rewrite T, D, R, F, M, P.
    now rewrite (proj2 (seqb_neq _ _) N3), (proj2 (seqb_neq _ _) N4), (proj2 (seqb_neq _ _) N5), (proj2 (seqb_neq _ _) N6).
  - reflexivity.
  - intros n x l s ss _ IH _ IHl J. simpl. rewrite IH by (eapply J; left; reflexivity). cbn. rewrite IHl; [reflexivity|]. intros m y I0. eapply J. right. exact I0.
Qed.
Lemma v3_leaf_cases v : json v -> ~ (sw_string v "type" = "object" \/ sw_string v "type" = "array") -> forall l, v = VMap l ->
  (exists s, v3_leaf v = Ok s /\ v3 v s /\ convertible v) \/ (v3_leaf v = Panic /\ ~ convertible v).
Proof.
  intros J N l E.
  assert (forall k, text_at v k (sw_string v k)) as TX by (intros k; now apply text_iff).
  assert (forall k, texts_at v k (sw_strings v k)) as TS by (intros k; now apply texts_iff).
  unfold v3_leaf. pose proof (TX "type") as T. remember (sw_string v "type") as t eqn:Et.
  destruct (t =?s "string") eqn:A.
  { apply seqb_eq in A. left. eexists. split; [reflexivity|]. rewrite A in *. split; [|eapply cv_plain; [exact T|simpl; tauto]].
    replace (if sw_has v "minLength" then to_uint64 (as_int64 (sw_get v "minLength")) else 0%Z)
      with (match (if sw_has v "minLength" then Some (to_uint64 (as_int64 (sw_get v "minLength"))) else None) with Some z => z | None => 0%Z end) by now destruct (sw_has v "minLength").
    replace (match sw_strings v "enum" with [] => None | s :: l0 => Some (s :: l0) end)
      with (match sw_strings v "enum" with [] => None | _ => Some (sw_strings v "enum") end) by now destruct (sw_strings v "enum").
    apply v3_string; auto; now apply length_iff. }
  destruct ((t =?s "integer") || (t =?s "number")) eqn:B.
  { left. eexists. split; [reflexivity|].
    assert (In t ["integer"; "number"]) as I0 by (apply Bool.orb_true_iff in B as [B|B]; apply seqb_eq in B as ->; simpl; tauto).
    split; [|eapply cv_plain; [exact T|destruct I0 as [<-|[<-|[]]]; simpl; tauto]].
    apply v3_number; auto; now apply number_iff. }
  destruct (t =?s "boolean") eqn:C.
  { apply seqb_eq in C. left. eexists. split; [reflexivity|]. rewrite C in *. split; [|eapply cv_plain; [exact T|simpl; tauto]]. apply v3_boolean; auto. }
  assert (~ In t ("object" :: "array" :: plain_types)) as NI.
  { intros [<-|[<-|[<-|[<-|[<-|[<-|[]]]]]]]; try discriminate; tauto. }
  destruct (sw_has v "$ref") eqn:H.
  - left. eexists. split; [reflexivity|]. apply (has_iff _ _ J) in H. split; [|eapply cv_ref; eassumption].
    eapply v3_pointer; eauto. now apply moved_iff.
  - right. split; [reflexivity|]. apply (has_false _ _ J) in H. intros CV.
    destruct CV as [s|v T' _|v i T' _ _|v t' T' I0|v t' T' _ P]; try discriminate;
      try (rewrite <- (text_fun _ _ _ _ J T T') in *); simpl in *; tauto.
Qed.
Definition v3_good (v : value) : Prop :=
  json v -> (exists s, v3_schema v = Ok s /\ v3 v s /\ convertible v) \/ (v3_schema v = Panic /\ ~ convertible v).
Lemma v3_good_all qs : (forall n x, In (n, x) qs -> json x /\ v3_good x) ->
  (exists ss, v3_schemas qs = Ok ss /\ v3_all qs ss /\ forall n x, In (n, x) qs -> convertible x)
  \/ (v3_schemas qs = Panic /\ exists n x, In (n, x) qs /\ ~ convertible x).
Proof.
  induction qs as [|[n x] qs IHq]; intros F.
  - left. exists []. repeat split; [constructor|intros ? ? []].
  - destruct (F n x (or_introl eq_refl)) as [Jx Fx]. cbn [v3_schemas]. destruct (Fx Jx) as [(s & E & V & C)|[E C]]; rewrite E; cbn [rbind].
    + destruct IHq as [(ss & E' & V' & C')|[E' (m & y & I0 & C')]]; [intros m y I0; apply (F m y); now right| |]; rewrite E'; cbn [rbind].
      * left. eexists. split; [reflexivity|]. split; [now constructor|]. intros m y [Q|I0]; [now injection Q as <- <-|now apply (C' m y)].
      * right. split; [reflexivity|]. exists m, y. split; [now right|exact C'].
    + right. split; [reflexivity|]. exists n, x. split; [now left|exact C].
Qed.
Lemma not_map v : json v -> (forall l, v <> VMap l) -> (forall s, v <> VStr s) -> ~ convertible v.
Proof.
  intros J NM NS C. destruct C as [s|v T _|v i T _ _|v t T I0|v t _ _ P]; [now destruct (NS s)|..].
  - destruct (text_map _ _ _ T) as [l E]; [discriminate|now destruct (NM l)].
  - destruct (text_map _ _ _ T) as [l E]; [discriminate|now destruct (NM l)].
  - destruct (text_map _ _ _ T) as [l E]; [intros ->; simpl in I0; intuition discriminate|now destruct (NM l)].
  - destruct (present_map _ _ P) as [l E]. now destruct (NM l).
Qed.
Lemma v3_cases v : v3_good v /\ forall l n x, v = VMap l -> In (n, x) l -> v3_good x.
Proof.
  induction v as [| | | | | | | | | | | | |l IH] using value_ind'; (split; [intros J|try discriminate]); try (now inversion J);
    try (right; split; [reflexivity|]; apply not_map; [exact J|discriminate|discriminate]).
  - left. eexists. split; [reflexivity|]. split; constructor.
  - assert (forall k, text_at (VMap l) k (sw_string (VMap l) k)) as TX by (intros k; now apply text_iff).
    assert (forall k, texts_at (VMap l) k (sw_strings (VMap l) k)) as TS by (intros k; now apply texts_iff).
    rewrite Forall_forall in IH. rewrite v3_schema_map. pose proof (TX "type") as T.
    destruct (sw_string (VMap l) "type" =?s "object") eqn:A; [|destruct (sw_string (VMap l) "type" =?s "array") eqn:B].
    + apply seqb_eq in A. rewrite A in T.
      assert (map_at (VMap l) "properties" (sw_map (VMap l) "properties")) as M by now apply map_at_iff.
      destruct (v3_good_all (sw_map (VMap l) "properties")) as [(ss & E & V & C)|[E (n & x & I0 & C)]].
      * intros n x I0. split; [exact (proj2 (json_map _ "properties" J) n x I0)|]. destruct M as [(l' & El & M)|[E _]]; [injection El as <-|rewrite E in I0; destruct I0].
        exact (proj2 (IH _ M) _ _ _ eq_refl I0).
      * rewrite E. cbn [rbind]. left. eexists. split; [reflexivity|]. split; [now apply (v3_object _ _ _ _ _ T (TX _) (TS _) M)|].
        apply cv_object; [exact T|]. intros ps n p AK I0. apply (C n p).
        replace (sw_map (VMap l) "properties") with ps; [exact I0|]. unfold sw_map. now rewrite (get_at _ _ _ J AK).
      * rewrite E. cbn [rbind]. right. split; [reflexivity|]. intros CV. destruct M as [M|[E' _]]; [|rewrite E' in I0; destruct I0].
        inversion CV as [|? T' F|? ? T' _ _|? t T' I1|? t T' I1 _]; subst; pose proof (text_fun _ _ _ _ J T T') as Q; try discriminate.
        -- apply C. exact (F _ _ _ M I0).
        -- subst t. simpl in I1. intuition discriminate.
        -- subst t. apply I1. now left.
    + apply seqb_eq in B. rewrite B in T. pose proof (json_get _ "items" J) as Ji.
      destruct (sw_get (VMap l) "items") as [| | | | | | | | | | | | |] eqn:G; rewrite <- ?G in *.
      1: { right. split; [now rewrite G|]. intros CV.
           inversion CV as [|? T' F|? i T' AK C|? t T' I1|? t T' I1 _]; subst; pose proof (text_fun _ _ _ _ J T T') as Q; try discriminate.
           - rewrite (get_at _ _ _ J AK) in G. subst i. revert C. apply not_map; [constructor|discriminate|discriminate].
           - subst t. simpl in I1. intuition discriminate.
           - subst t. apply I1. simpl. tauto. }
      all: assert (at_key (VMap l) "items" (sw_get (VMap l) "items")) as AK by (apply at_get; [reflexivity|congruence]);
        assert (v3_good (sw_get (VMap l) "items")) as GD by (destruct AK as (l' & El & I0); injection El as <-; exact (proj1 (IH _ I0)));
        destruct (GD Ji) as [(sch & E & V & C)|[E C]]; rewrite E; cbn [rbind];
        [left; eexists; split; [reflexivity|]; split; [now apply (v3_array _ _ _ _ _ T (TX _) (TS _) AK)|now apply (cv_array _ _ T AK)]
        |right; split; [reflexivity|]; intros CV;
         inversion CV as [|? T' F|? i T' AK' C'|? ty T' I1|? ty T' I1 _]; subst; pose proof (text_fun _ _ _ _ J T T') as Q; try discriminate;
         [apply C; now rewrite (get_at _ _ _ J AK')|subst ty; simpl in I1; intuition discriminate|subst ty; apply I1; simpl; tauto]].
    + apply (v3_leaf_cases _ J) with (l := l); [|reflexivity]. intros [Q|Q]; rewrite Q in *; discriminate.
  - intros l' n x E I0. injection E as <-. rewrite Forall_forall in IH. exact (proj1 (IH _ I0)).
Qed.
Lemma v3_iff v s : json v -> (v3 v s <-> v3_schema v = Ok s).
Proof.
  intros J. split; [intros V; exact (proj1 v3_sound _ _ V J)|]. intros E.
  destruct (proj1 (v3_cases v) J) as [(s' & E' & V & _)|[E' _]]; congruence.
Qed.
Lemma convertible_iff v : json v -> (convertible v <-> exists s, v3 v s).
Proof.
  intros J. destruct (proj1 (v3_cases v) J) as [(s' & E' & V & C)|[E' C]]; split; eauto; [intros; contradiction|].
  intros [s V]. apply (v3_iff v s J) in V. congruence.
Qed.
Lemma v3_total v : json v -> (exists s, v3_schema v = Ok s) \/ v3_schema v = Panic.
Proof. intros J. destruct (proj1 (v3_cases v) J) as [(s' & E' & _)|[E' _]]; eauto. Qed.

(** ** Operations *)
(** [r] succeeds if [ok], or else crashes *)
Definition settles {A} (r : result unit A) (ok : Prop) : Prop := (ok /\ exists x, r = Ok x) \/ (~ ok /\ r = Panic).
Lemma settles_iff {A} (r : result unit A) P Q : (P <-> Q) -> settles r P -> settles r Q.
Proof. unfold settles. tauto. Qed.
Lemma v3_settles v : json v -> settles (v3_schema v) (convertible v).
Proof. intros J. destruct (proj1 (v3_cases v) J) as [(s & E & _ & C)|[E C]]; [left|right]; eauto. Qed.
Lemma settles_bind {A B} (r : result unit A) (f : A -> result unit B) P Q :
  settles r P -> (forall x, r = Ok x -> settles (f x) Q) -> settles (rbind r f) (P /\ Q).
Proof.
  intros [[p [x E]]|[p E]] F; rewrite E; cbn [rbind].
  - destruct (F x E) as [[q [y E']]|[q E']]; [left|right]; split; eauto; tauto.
  - right. tauto.
Qed.
Lemma settles_ok {A} (x : A) : settles (Ok x) True.
Proof. left. eauto. Qed.
Lemma schemas_settle l : (forall n x, In (n, x) l -> json x) -> settles (v3_schemas l) (forall n x, In (n, x) l -> convertible x).
Proof.
  intros J. destruct (v3_good_all l) as [(ss & E & _ & C)|[E (n & x & I0 & C)]].
  - intros n x I0. split; [eauto|apply v3_cases].
  - left. eauto.
  - right. split; [|exact E]. intros F. exact (C (F n x I0)).
Qed.
Lemma schemas_iff l ss : (forall n x, In (n, x) l -> json x) -> (v3_all l ss <-> v3_schemas l = Ok ss).
Proof.
  intros J. split; [intros V; exact (proj2 v3_sound _ _ V J)|].
  destruct (v3_good_all l) as [(ss' & E & V & C)|[E _]]; [intros n x I0; split; [eauto|apply v3_cases]| |]; intros Q; congruence.
Qed.
Lemma get_schema v k : json v -> (present v k <-> sw_get v k <> VNil).
Proof. intros J. rewrite <- (has_iff v k J). unfold sw_has. destruct (sw_get v k); split; congruence. Qed.
Lemma content_settles media v : json v ->
  settles (v3_content media (sw_get v "schema")) (forall s, at_key v "schema" s -> s <> VNil -> convertible s).
Proof.
  intros J. destruct (sw_get v "schema") as [| | | | | | | | | | | | |] eqn:E.
  1: { left. split; [|eexists; reflexivity]. intros s A N. rewrite (get_at _ _ _ J A) in E. congruence. }
  all: rewrite <- E; assert (at_key v "schema" (sw_get v "schema")) as A by (apply at_get; congruence);
    apply (settles_iff _ (convertible (sw_get v "schema") /\ True));
    [split; [intros [C _] s' A' _; now rewrite (at_fun _ _ _ _ J A' A)|intros F; split; [apply F; [exact A|congruence]|exact Logic.I]]
    |unfold v3_content; rewrite E; rewrite <- E; apply settles_bind; [apply v3_settles; now apply json_get|intros; apply settles_ok]].
Qed.
Lemma mem_json media : (str_mem "application/json" media = true <-> In "application/json" media).
Proof. apply str_mem_In. Qed.
Lemma content_iff media v o : json v -> (content_of media v o <-> v3_content media (sw_get v "schema") = Ok o).
Proof.
  intros J. unfold content_of. rewrite (get_schema v "schema" J). split.
  - intros [[N ->]|(x & s & A & N & V & M)].
    + destruct (sw_get v "schema"); try (now destruct N; congruence). reflexivity.
    + rewrite (get_at _ _ _ J A). apply (v3_iff x s (json_at _ _ _ J A)) in V.
      assert (v3_content media x = (s <- v3_schema x ;; Ok (if str_mem "application/json" media then Some s else None))) as -> by (destruct x; [congruence|reflexivity..]).
      rewrite V. cbn [rbind]. destruct M as [[M ->]|[M ->]].
      * apply mem_json in M. now rewrite M.
      * destruct (str_mem "application/json" media) eqn:E; [|reflexivity]. destruct M. now apply mem_json.
  - intros H. destruct (match sw_get v "schema" with VNil => true | _ => false end) eqn:Z.
    + left. destruct (sw_get v "schema"); try discriminate. split; [congruence|]. now injection H.
    + assert (sw_get v "schema" <> VNil) as N by (intros E; rewrite E in Z; discriminate).
      right. assert (v3_content media (sw_get v "schema") = (s <- v3_schema (sw_get v "schema") ;; Ok (if str_mem "application/json" media then Some s else None))) as Q
        by (destruct (sw_get v "schema"); [congruence|reflexivity..]).
      rewrite Q in H. apply rbind_Ok in H as (s & E & H). exists (sw_get v "schema"), s. split; [now apply at_get|]. split; [exact N|].
      split; [apply v3_iff; [now apply json_get|exact E]|].
      destruct (str_mem "application/json" media) eqn:M; injection H as <-; [left|right]; (split; [|reflexivity]); [now apply mem_json|].
      intros I0. apply mem_json in I0. congruence.
Qed.
Lemma in_body_iff p : json p -> (in_body p <-> sw_string p "in" = "body").
Proof. intros J. now apply text_iff. Qed.
Lemma json_str s : json (VStr s).
Proof. constructor. Qed.
Lemma params_settle media ps : Forall json ps -> forall b r, settles (v3_params media ps b r) (forall p, In p ps -> param_convertible p).
Proof.
  induction 1 as [|p ps J F IH]; intros b r.
  - left. split; [intros ? []|]. eexists. reflexivity.
  - apply (settles_iff _ (param_convertible p /\ forall q, In q ps -> param_convertible q)).
    { split; [intros [A B] q [<- |I0]; auto|]. intros A. split; intros; apply A; simpl; auto. }
    cbn [v3_params]. destruct (sw_string p "in" =?s "body") eqn:E.
    + apply seqb_eq in E. apply (in_body_iff p J) in E. apply settles_bind; [|intros; apply IH].
      apply (settles_iff _ (forall s, at_key p "schema" s -> s <> VNil -> convertible s)); [|now apply content_settles].
      unfold param_convertible. unfold in_body in E. tauto.
    + apply seqb_neq in E. rewrite <- (in_body_iff p J) in E.
      assert (forall P Q R, (P <-> (Q /\ (R /\ True))) -> (Q /\ R <-> P)) as TT by tauto.
      eapply settles_iff; [|apply settles_bind; [|intros s Es; apply settles_bind; [apply (IH b r)|intros [q b'] _; apply settles_ok]]].
      1: { symmetry. apply TT. reflexivity. }
      destruct (sw_string p "type" =?s "") eqn:T.
      * apply seqb_eq in T. apply (text_iff _ _ _ J) in T.
        apply (settles_iff _ (convertible (sw_get p "schema"))); [|now apply v3_settles, json_get].
        unfold param_convertible. unfold in_body in E. split.
        -- intros C. split; [tauto|]. intros _ _. exists (sw_get p "schema"). split; [|exact C].
           apply at_get; [reflexivity|]. intros Q. rewrite Q in C. revert C. apply not_map; [constructor|discriminate|discriminate].
        -- intros [_ C]. destruct (C E T) as (s & A & C'). now rewrite (get_at _ _ _ J A).
      * left. split; [|eexists; reflexivity]. split; [unfold in_body in E; tauto|]. intros _ T'. apply (text_iff _ _ _ J) in T'. rewrite T' in T. discriminate.
Qed.
Lemma parameter_iff p q : json p -> (parameter_of p q <->
  exists s, v3_schema (if sw_string p "type" =?s "" then sw_get p "schema" else VStr (sw_string p "type")) = Ok s
    /\ q = mkOParam (sw_string p "in") (sw_string p "name") (as_bool (sw_get p "required")) "" s).
Proof.
  intros J. unfold parameter_of. split.
  - intros (i & n & b & t & s & I0 & N & B & T & V & ->). apply (flag_iff _ _ _ J) in B. texts J. subst. exists s. split; [|reflexivity].
    destruct V as [[NE V]|(E & x & A & V)].
    + rewrite (proj2 (seqb_neq _ _) NE). apply v3_iff in V; [exact V|constructor].
    + rewrite E. cbn [String.eqb]. rewrite (get_at _ _ _ J A). apply v3_iff in V; [exact V|exact (json_at _ _ _ J A)].
  - intros (s & V & ->). exists (sw_string p "in"), (sw_string p "name"), (as_bool (sw_get p "required")), (sw_string p "type"), s.
    rewrite !(text_iff _ _ _ J), (flag_iff _ _ _ J). repeat (split; [reflexivity|]). split; [|reflexivity].
    destruct (sw_string p "type" =?s "") eqn:E.
    + apply seqb_eq in E. right. split; [exact E|]. exists (sw_get p "schema"). split.
      * apply at_get; [reflexivity|]. intros Q. rewrite Q in V. discriminate.
      * apply v3_iff; [now apply json_get|exact V].
    + apply seqb_neq in E. left. split; [exact E|]. apply v3_iff; [constructor|exact V].
Qed.
Definition bodies_from (b0 : option (string * oas)) (r0 : bool) (media : list string) (ps : list value) (b : option (string * oas)) (req : bool) : Prop :=
  (forall p, In p ps -> in_body p -> exists o, content_of media p o)
  /\ (((forall p, In p ps -> ~ in_body p) /\ b = b0 /\ req = r0)
      \/ exists l p r d o, ps = l ++ p :: r /\ in_body p /\ (forall q, In q r -> ~ in_body q) /\ text_at p "description" d /\ content_of media p o
         /\ flag_at p "required" req /\ b = match o with Some s => Some (d, s) | None => None end).
Lemma from_skip b0 r0 media p ps b r : ~ in_body p -> (bodies_from b0 r0 media (p :: ps) b r <-> bodies_from b0 r0 media ps b r).
Proof.
  intros N. unfold bodies_from. split.
  - intros [C D]. split; [intros q I0; apply C; now right|]. destruct D as [(F & D)|(l & q & t & d & o & E & B & R)].
    + left. split; [intros q I0; apply F; now right|exact D].
    + right. destruct l as [|x l]; injection E as -> ->; [contradiction|]. exists l, q, t, d, o. auto.
  - intros [C D]. split; [intros q [<- |I0]; [contradiction|now apply C]|]. destruct D as [(F & D)|(l & q & t & d & o & -> & R)].
    + left. split; [|exact D]. intros q [<- |I0]; [exact N|now apply F].
    + right. exists (p :: l), q, t, d, o. auto.
Qed.
Lemma content_fun media p o o' : json p -> content_of media p o -> content_of media p o' -> o = o'.
Proof. intros J A B. apply (content_iff _ _ _ J) in A, B. congruence. Qed.
Lemma from_body b0 r0 media p ps b r : json p -> in_body p -> (bodies_from b0 r0 media (p :: ps) b r <->
  exists o, content_of media p o /\ bodies_from (option_map (fun s => (sw_string p "description", s)) o) (as_bool (sw_get p "required")) media ps b r).
Proof.
  intros J B. unfold bodies_from. split.
  - intros [C D]. destruct (C p (or_introl eq_refl) B) as [o O]. exists o. split; [exact O|]. split; [intros q I0; apply C; now right|].
    destruct D as [(F & D)|(l & q & t & d & o' & E & B' & F & T & O' & G & ->)]; [now destruct (F p (or_introl eq_refl))|].
    destruct l as [|x l]; injection E as -> ->.
    + left. split; [exact F|]. texts J. subst d. rewrite (content_fun _ _ _ _ J O O'). apply (flag_iff _ _ _ J) in G. split; [now destruct o'|congruence].
    + right. exists l, q, t, d, o'. repeat (split; [assumption||reflexivity|]). reflexivity.
  - intros (o & O & C & D). split; [intros q [<- |I0] B'; [eauto|now apply C]|].
    destruct D as [(F & -> & ->)|(l & q & t & d & o' & -> & R)].
    + right. exists [], p, ps, (sw_string p "description"), o. rewrite (text_iff _ _ _ J), (flag_iff _ _ _ J).
      repeat (split; [assumption||reflexivity|]). now destruct o.
    + right. exists (p :: l), q, t, d, o'. auto.
Qed.
Lemma params_iff media ps : Forall json ps -> forall b0 r0 q b r, v3_params media ps b0 r0 = Ok (q, (b, r)) <->
  (exists kept, without in_body ps kept /\ Forall2 parameter_of kept q) /\ bodies_from b0 r0 media ps b r.
Proof.
  induction 1 as [|p ps J F IH]; intros b0 r0 q b r.
  - cbn [v3_params]. split.
    + intros [= <- <- <-]. split; [exists []; split; constructor|]. split; [intros ? []|]. left. split; [intros ? []|auto].
    + intros [(kept & W & K) [_ [(_ & -> & ->)|(l & p & t & d & o & E & _)]]]; [|now destruct l]. inversion W; subst. inversion K. reflexivity.
  - cbn [v3_params]. destruct (sw_string p "in" =?s "body") eqn:E.
    + apply seqb_eq in E. apply (in_body_iff p J) in E. rewrite (from_body _ _ _ _ _ _ _ J E). split.
      * intros H. apply rbind_Ok in H as (o & O & H). apply IH in H as [(kept & W & K) H]. split; [exists kept; split; [now constructor|exact K]|].
        exists o. split; [now apply content_iff|exact H].
      * intros [(kept & W & K) (o & O & H)]. apply (content_iff _ _ _ J) in O. rewrite O. cbn [rbind]. apply IH. split; [|exact H].
        inversion W; subst; [eauto|contradiction].
    + apply seqb_neq in E. rewrite <- (in_body_iff p J) in E. rewrite (from_skip _ _ _ _ _ _ _ E). split.
      * intros H. apply rbind_Ok in H as (s & S & H). apply rbind_Ok in H as ([q' b'] & P & H). injection H as <- ->.
        apply IH in P as [(kept & W & K) H]. split; [|exact H]. exists (p :: kept). split; [now apply wo_keep|]. constructor; [|exact K].
        apply parameter_iff; [exact J|]. eauto.
      * intros [(kept & W & K) H]. inversion W as [|? ? ? ? W'|? ? kept' ? W']; subst; [contradiction|]. inversion K as [|? q1 ? qs P K' E1 E2]; subst.
        apply (parameter_iff _ _ J) in P as (s & S & ->). rewrite S. cbn [rbind].
        rewrite (proj2 (IH b0 r0 qs b r)); [reflexivity|]. split; [eauto|exact H].
Qed.
Lemma header_iff h g : json (snd h) -> (sw_header_of h g <-> v3_header h = g).
Proof.
  intros J. unfold sw_header_of, v3_header. split.
  - intros (d & t & s & D & T & V & ->). texts J. subst. apply (v3_iff _ _ (json_str _)) in V. cbn in V. injection V as <-. reflexivity.
  - intros <-. exists (sw_string (snd h) "description"), (sw_string (snd h) "type"). eexists. rewrite !(text_iff _ _ _ J). repeat (split; [reflexivity|]).
    split; [constructor|reflexivity].
Qed.
Lemma headers_iff l : (forall n x, In (n, x) l -> json x) -> forall hs, Forall2 sw_header_of l hs <-> map v3_header l = hs.
Proof.
  induction l as [|[n x] l IH]; intros J hs; simpl; split.
  - now inversion 1.
  - intros <-. constructor.
  - inversion 1; subst. f_equal; [apply header_iff; [apply (J n); now left|assumption]|]. apply IH; [|assumption]. intros m y' I0. apply (J m). now right.
  - intros <-. constructor; [apply header_iff; [apply (J n); now left|reflexivity]|]. apply IH; [|reflexivity]. intros m y I0. apply (J m). now right.
Qed.
Lemma responses_settle media l : (forall n x, In (n, x) l -> json x) ->
  settles (v3_responses media l) (forall k r s, In (k, r) l -> at_key r "schema" s -> s <> VNil -> convertible s).
Proof.
  induction l as [|[k v] l IH]; intros J.
  - left. split; [intros ? ? ? []|]. eexists. reflexivity.
  - cbn [v3_responses]. eapply settles_iff; [|apply settles_bind; [apply content_settles; apply (J k); now left|intros c _; apply settles_bind; [apply IH|intros; apply settles_ok]]].
    2: { intros n x I0. apply (J n). now right. }
    split.
    + intros (A & B & _) k' r s [Q|I0]; [injection Q as <- <-; apply A|now apply (B k' r s)].
    + intros A. split; [intros s; apply (A k v s); now left|]. split; [|exact Logic.I]. intros k' r s I0. apply (A k' r s). now right.
Qed.
Lemma responses_iff media l : (forall n x, In (n, x) l -> json x) -> forall rs, Forall2 (response_of media) l rs <-> v3_responses media l = Ok rs.
Proof.
  induction l as [|[k v] l IH]; intros J rs; cbn [v3_responses]; split.
  - now inversion 1.
  - intros [= <-]. constructor.
  - inversion 1 as [|? ? ? rs' R F]; subst. destruct R as (d & hl & hs & o & D & H' & FH & C & ->).
    assert (json v) as Jv by (apply (J k); now left). cbn [snd fst] in *. apply (content_iff _ _ _ Jv) in C. rewrite C. cbn [rbind].
    rewrite (proj1 (IH (fun m y I0 => J m y (or_intror I0)) rs') F). cbn [rbind]. texts Jv. subst.
    apply (headers_iff _ (proj2 (json_map _ "headers" Jv))) in FH. now rewrite FH.
  - intros H. apply rbind_Ok in H as (c & C & H). apply rbind_Ok in H as (q & R & H). injection H as <-.
    assert (json v) as Jv by (apply (J k); now left). constructor; [|apply IH; [intros m y I0; apply (J m); now right|exact R]].
    exists (sw_string v "description"), (sw_map v "headers"). eexists _, c. cbn [snd fst]. rewrite (text_iff _ _ _ Jv), (map_at_iff _ _ _ Jv), (content_iff _ _ _ Jv).
    split; [reflexivity|]. split; [reflexivity|]. split; [apply headers_iff; [now apply json_map|reflexivity]|]. auto.
Qed.
Lemma media_iff v k dflt media : json v -> (media_at v k dflt media <-> or_default (sw_strings v k) dflt = media).
Proof.
  intros J. unfold media_at. split.
  - intros (l & T & C). texts J. rewrite T. destruct C as [[N ->]|[-> ->]]; [now destruct l|reflexivity].
  - intros <-. exists (sw_strings v k). rewrite (texts_iff _ _ _ J). split; [reflexivity|]. destruct (sw_strings v k); [right|left]; split; (reflexivity||discriminate).
Qed.
Lemma operation_settles cs ps v : json v -> settles (v3_operation cs ps v) (v <> VNil ->
  (forall l p, at_key v "parameters" (VArr l) -> In p l -> param_convertible p)
  /\ (forall rs k r s, at_key v "responses" (VMap rs) -> In (k, r) rs -> at_key r "schema" s -> s <> VNil -> convertible s)).
Proof.
  intros J. destruct (match v with VNil => true | _ => false end) eqn:Z.
  - destruct v; try discriminate. left. split; [congruence|]. eexists. reflexivity.
  - assert (v <> VNil) as N by (intros ->; discriminate).
    assert (v3_operation cs ps v = ('(q, (body, req)) <- v3_params (or_default (sw_strings v "consumes") cs) (as_array (sw_get v "parameters")) None false ;;
      rs <- v3_responses (or_default (sw_strings v "produces") ps) (sw_map v "responses") ;;
      Ok (Some (mkOOp (sw_string v "operationId") (sw_string v "summary") (sw_strings v "tags") q body rs req)))) as -> by (destruct v; [congruence|reflexivity..]).
    eapply settles_iff; [|apply settles_bind; [apply params_settle; now apply json_array|intros [q [b r]] _; apply settles_bind; [apply responses_settle; now apply json_map|intros; apply settles_ok]]].
    assert (array_at v "parameters" (as_array (sw_get v "parameters"))) as A by now apply array_iff.
    assert (map_at v "responses" (sw_map v "responses")) as M by now apply map_at_iff.
    split.
    + intros (P & R & _) _. split.
      * intros l p A' I0. apply P. rewrite (get_at _ _ _ J A'). exact I0.
      * intros rs k r s A'. unfold sw_map in R. rewrite (get_at _ _ _ J A') in R. eauto.
    + intros H. destruct (H N) as [P R]. split; [|split; [|exact Logic.I]].
      * intros p I0. destruct A as [A|[E _]]; [exact (P _ _ A I0)|rewrite E in I0; destruct I0].
      * intros k r s I0. destruct M as [M|[E _]]; [exact (R _ _ _ s M I0)|rewrite E in I0; destruct I0].
Qed.
Lemma operation_iff cs ps v o : json v -> v <> VNil -> (v3_operation cs ps v = Ok o <-> exists op, o = Some op /\ operation_of cs ps v op).
Proof.
  intros J N.
  assert (v3_operation cs ps v = ('(q, (body, req)) <- v3_params (or_default (sw_strings v "consumes") cs) (as_array (sw_get v "parameters")) None false ;;
      rs <- v3_responses (or_default (sw_strings v "produces") ps) (sw_map v "responses") ;;
      Ok (Some (mkOOp (sw_string v "operationId") (sw_string v "summary") (sw_strings v "tags") q body rs req)))) as -> by (destruct v; [congruence|reflexivity..]).
  split.
  - intros H. apply rbind_Ok in H as ([q [b r]] & P & H). apply rbind_Ok in H as (rs & R & H). injection H as <-. eexists. split; [reflexivity|].
    apply (params_iff _ _ (json_array _ _ J)) in P as [P B]. apply (responses_iff _ _ (proj2 (json_map _ "responses" J))) in R.
    eexists _, _, _, _, _, q, b, r, _, _, rs. rewrite !(text_iff _ _ _ J), (texts_iff _ _ _ J), !(media_iff _ _ _ _ J), (array_iff _ _ _ J), (map_at_iff _ _ _ J).
    do 5 (split; [reflexivity|]). split; [exact P|]. split; [exact B|]. do 2 (split; [reflexivity|]). split; [exact R|reflexivity].
  - intros (op & -> & id & sm & tags & c & l & params & body & req & prs & rl & rs & T1 & T2 & T3 & M1 & A & P & B & M2 & M3 & R & ->).
    texts J. apply (media_iff _ _ _ _ J) in M1, M2. apply (array_iff _ _ _ J) in A. subst.
    rewrite (proj2 (params_iff _ _ (json_array _ _ J) None false params body req) (conj P B)). cbn [rbind].
    apply (responses_iff _ _ (proj2 (json_map _ "responses" J))) in R. rewrite R. reflexivity.
Qed.
Lemma item_settles cs ps v ms : json v -> settles (v3_item cs ps v ms) (forall k op, In k (map fst ms) -> at_key v k op -> op <> VNil ->
  (forall l p, at_key op "parameters" (VArr l) -> In p l -> param_convertible p)
  /\ (forall rs k r s, at_key op "responses" (VMap rs) -> In (k, r) rs -> at_key r "schema" s -> s <> VNil -> convertible s)).
Proof.
  intros J. induction ms as [|[k mth] ms IH].
  - left. split; [intros ? ? []|]. eexists. reflexivity.
  - cbn [v3_item]. eapply settles_iff; [|apply settles_bind; [apply operation_settles; now apply json_get|intros o _; apply settles_bind; [exact IH|intros; apply settles_ok]]].
    split.
    + intros (A & B & _) k' op [<- |I0] AK N; [|exact (B k' op I0 AK N)]. cbn [fst] in AK. rewrite (get_at _ _ _ J AK) in A. exact (A N).
    + intros H. split; [|split; [|exact Logic.I]].
      * intros N. apply (H k); [now left|now apply at_get|exact N].
      * intros k' op I0. apply H. now right.
Qed.
Lemma item_iff cs ps v ms pi : json v -> (v3_item cs ps v ms = Ok pi <-> item_of cs ps v ms pi).
Proof.
  intros J. revert pi. induction ms as [|[k mth] ms IH]; intros pi; cbn [v3_item].
  - split; [intros [= <-]; constructor|now inversion 1].
  - destruct (match sw_get v k with VNil => true | _ => false end) eqn:Z.
    + assert (sw_get v k = VNil) as E by (destruct (sw_get v k); congruence). rewrite E. cbn [v3_operation rbind].
      assert (~ present v k) as NP by (rewrite (get_schema _ _ J); tauto). split.
      * intros H. apply rbind_Ok in H as (q & H & Q). injection Q as <-. apply io_absent; [exact NP|now apply IH].
      * inversion 1 as [|? ? ? ? ? I0|? ? ? ? x ? A N _ I0]; subst; [|now destruct NP; exists x]. apply IH in I0. rewrite I0. reflexivity.
    + assert (sw_get v k <> VNil) as N by (intros E; rewrite E in Z; discriminate). pose proof (at_get _ _ _ eq_refl N) as AK. split.
      * intros H. apply rbind_Ok in H as (o & O & H). apply rbind_Ok in H as (q & H & Q). injection Q as <-.
        apply (operation_iff _ _ _ _ (json_get _ _ J) N) in O as (op & -> & O). eapply io_present; [exact AK|exact N|exact O|now apply IH].
      * inversion 1 as [|? ? ? ? NP I0|? ? ? ? x op A _ O I0]; subst; [destruct NP; eexists; split; [exact AK|exact N]|].
        assert (x = sw_get v k) as -> by (symmetry; now apply get_at).
        rewrite (proj2 (operation_iff cs ps _ (Some op) (json_get _ _ J) N)) by eauto. cbn [rbind]. apply IH in I0. rewrite I0. reflexivity.
Qed.
Lemma paths_settle cs ps l : (forall n x, In (n, x) l -> json x) -> settles (v3_paths cs ps l) (forall path item k op, In (path, item) l -> In k (map fst sw_keys) -> at_key item k op -> op <> VNil ->
  (forall l p, at_key op "parameters" (VArr l) -> In p l -> param_convertible p)
  /\ (forall rs k r s, at_key op "responses" (VMap rs) -> In (k, r) rs -> at_key r "schema" s -> s <> VNil -> convertible s)).
Proof.
  induction l as [|[n x] l IH]; intros J.
  - left. split; [intros ? ? ? ? []|]. eexists. reflexivity.
  - cbn [v3_paths]. eapply settles_iff; [|apply settles_bind; [apply (item_settles cs ps x sw_keys); apply (J n); now left|intros i _; apply settles_bind; [apply IH|intros; apply settles_ok]]].
    2: { intros m y I0. apply (J m). now right. }
    split.
    + intros (A & B & _) p item k op [Q|I0]; [injection Q as <- <-; apply A|exact (B p item k op I0)].
    + intros H. split; [intros k op; apply (H n x); now left|]. split; [|exact Logic.I]. intros p item k op I0. apply (H p item). now right.
Qed.
Lemma paths_iff cs ps l : (forall n x, In (n, x) l -> json x) -> forall q, v3_paths cs ps l = Ok q <-> Forall2 (path_of cs ps) l q.
Proof.
  induction l as [|[n x] l IH]; intros J q; cbn [v3_paths]; split.
  - intros [= <-]. constructor.
  - now inversion 1.
  - intros H. apply rbind_Ok in H as (i & I0 & H). apply rbind_Ok in H as (r & R & H). injection H as <-. constructor.
    + split; [reflexivity|]. apply item_iff; [apply (J n); now left|exact I0].
    + apply IH; [|exact R]. intros m y I1. apply (J m). now right.
  - inversion 1 as [|? [n' i] ? r P R]; subst. destruct P as [E I0]. cbn [fst snd] in *. subst n'. apply item_iff in I0; [|apply (J n); now left].
    change v3_methods with sw_keys. rewrite I0. cbn [rbind]. rewrite (proj2 (IH (fun m y I1 => J m y (or_intror I1)) r) R). reflexivity.
Qed.

(** ** Documents *)
Lemma sw_convertible_iff v : json v -> (sw_convertible v <->
  (forall n x, In (n, x) (sw_map v "definitions") -> convertible x) /\
  (forall path item k op, In (path, item) (sw_map v "paths") -> In k (map fst sw_keys) -> at_key item k op -> op <> VNil ->
  (forall l p, at_key op "parameters" (VArr l) -> In p l -> param_convertible p)
  /\ (forall rs k r s, at_key op "responses" (VMap rs) -> In (k, r) rs -> at_key r "schema" s -> s <> VNil -> convertible s))).
Proof.
  intros J. assert (map_at v "definitions" (sw_map v "definitions")) as D by now apply map_at_iff.
  assert (map_at v "paths" (sw_map v "paths")) as P by now apply map_at_iff. unfold sw_convertible. split.
  - intros [A B]. split.
    + intros n x I0. destruct D as [D|[E _]]; [exact (A _ _ _ D I0)|rewrite E in I0; destruct I0].
    + intros path item k op I0 I1 AK N. destruct P as [P|[E _]]; [|rewrite E in I0; destruct I0]. apply (B path k). exists (sw_map v "paths"), item. auto.
  - intros [A B]. split.
    + intros ds n d AK I0. apply (A n). unfold sw_map. now rewrite (get_at _ _ _ J AK).
    + intros path k op (ps & item & AK & I0 & I1 & AO & N). apply (B path item k); try assumption. unfold sw_map. now rewrite (get_at _ _ _ J AK).
Qed.
Lemma doc_settles v : json v -> text_at v "swagger" "2.0" -> settles (v3_doc v) (sw_convertible v).
Proof.
  intros J T. texts J. unfold v3_doc. rewrite T. change ("2.0" =?s "2.0") with true. cbv iota.
  eapply settles_iff; [|apply settles_bind; [apply schemas_settle; now apply json_map|intros ss _; apply settles_bind; [apply paths_settle; now apply json_map|intros; apply settles_ok]]].
  rewrite (sw_convertible_iff v J). tauto.
Qed.
Lemma doc_iff v i doc : json v -> (v3_doc v = Ok (i, doc) <-> text_at v "swagger" "2.0" /\ i = v3_info v /\ doc_of v doc).
Proof.
  intros J. rewrite (text_iff _ _ _ J). unfold v3_doc. destruct (sw_string v "swagger" =?s "2.0") eqn:E.
  - apply seqb_eq in E. rewrite E. split.
    + intros H. apply rbind_Ok in H as (ss & S & H). apply rbind_Ok in H as (ps & P & H). injection H as <- <-.
      split; [reflexivity|]. split; [reflexivity|].
      eexists _, _, _, _. rewrite !(texts_iff _ _ _ J), !(map_at_iff _ _ _ J). do 4 (split; [reflexivity|]).
      split; [apply schemas_iff; [now apply json_map|exact S]|apply paths_iff; [now apply json_map|exact P]].
    + intros (_ & -> & cs & ps & ds & pl & A & B & C & D & S & P). texts J. subst.
      apply schemas_iff in S; [|now apply json_map]. apply paths_iff in P; [|now apply json_map]. rewrite S. cbn [rbind]. rewrite P. cbn [rbind]. now destruct doc.
  - apply seqb_neq in E. split; [discriminate|]. now intros (Q & _).
Qed.
Lemma valid_swagger l : json (VMap l) ->
  (is_valid_swagger (Some l) = Ok true <-> text_at (VMap l) "swagger" "2.0" /\ sw_convertible (VMap l))
  /\ (is_valid_swagger (Some l) = Ok false <-> ~ text_at (VMap l) "swagger" "2.0")
  /\ (is_valid_swagger (Some l) = Panic <-> text_at (VMap l) "swagger" "2.0" /\ ~ sw_convertible (VMap l)).
Proof.
  intros J. unfold is_valid_swagger, load_swagger. destruct (sw_string (VMap l) "swagger" =?s "2.0") eqn:E.
  - apply seqb_eq in E. apply (text_iff _ _ _ J) in E. destruct (doc_settles _ J E) as [[C [d Q]]|[C Q]]; rewrite Q; intuition congruence.
  - unfold v3_doc. rewrite E. apply seqb_neq in E. rewrite <- (text_iff _ _ _ J) in E. intuition congruence.
Qed.
