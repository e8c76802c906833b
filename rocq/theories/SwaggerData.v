(** The data of Swagger definitions, and what the types read from them accept. *)
From Verif Require Import GoStr Outcome Value Data Schema Scalars SpecTime SpecModel ModelFacts ValidateFacts SpecPV SpecMisc SpecGen Misc Model OpenApi OpenApiImport SpecOpenApi SpecImport SpecOpenData
  MiscFacts ImportFacts ImportRound ImportRead ImportData ImportFits ImportMeans Swagger SpecSwagger SwaggerFacts.
From Coq Require Import Lia.

Lemma all_keys l ss : v3_all l ss -> map fst ss = map fst l.
Proof. induction 1; simpl; congruence. Qed.
Lemma all_left l ss k x : v3_all l ss -> In (k, x) l -> exists s, In (k, s) ss /\ v3 x s.
Proof.
  induction 1 as [|n y l s ss V _ IH]; [intros []|]. intros [E|I0]; [injection E as -> ->; exists s; split; [now left|exact V]|].
  destruct (IH I0) as (s' & I1 & V'). exists s'. split; [now right|exact V'].
Qed.
Lemma all_right l ss k s : v3_all l ss -> In (k, s) ss -> exists x, In (k, x) l /\ v3 x s.
Proof.
  induction 1 as [|n y l s' ss V _ IH]; [intros []|]. intros [E|I0]; [injection E as -> ->; exists y; split; [now left|exact V]|].
  destruct (IH I0) as (x & I1 & V'). exists x. split; [now right|exact V'].
Qed.
Lemma moved_same n : smem "#" n = false -> moved n n.
Proof.
  induction n as [|c n IH]; intros H; [constructor|]. cbn [smem] in H. apply Bool.orb_false_iff in H as [H1 H2]. apply mv_skip; [|now apply IH].
  intros [r E]. injection E as -> _. discriminate.
Qed.
Lemma typed_text d t : named_type d t -> text_at d "type" t.
Proof. intros [_ T]. now left. Qed.
(** which of the cases applies *)
Ltac inv_v3 J V T := let T' := fresh "T'" in let Q := fresh "Q" in let I1 := fresh "I1" in
  inversion V as [?|? ? ? ? ? T'|? ? ? ? ? T'|? ? ? ? ? ? ? ? T'|? ? ? ? ? ? ? T' I1|? ? ? T'|? ? ? ? ? ? T' I1]; subst;
  [now destruct (proj2 T) as (? & ? & _)|..]; pose proof (text_fun _ _ _ _ J (typed_text _ _ T) T') as Q; try discriminate; try subst;
  try (simpl in I1; intuition (discriminate||congruence); fail).

Lemma in_bool d s : json d -> v3 d s -> named_type d "boolean" -> o_ref s = "" /\ o_type s = "boolean".
Proof. intros J V T. inv_v3 J V T. auto. Qed.
Lemma in_string d s : json d -> v3 d s -> named_type d "string" -> o_ref s = "" /\ o_type s = "string" /\ text_at d "format" (o_format s)
  /\ text_at d "pattern" (o_pattern s) /\ (exists lo, length_at d "minLength" lo /\ o_minlen s = match lo with Some z => z | None => 0%Z end)
  /\ length_at d "maxLength" (o_maxlen s) /\ exists en, texts_at d "enum" en /\ o_enum s = match en with [] => None | _ => Some en end.
Proof. intros J V T. inv_v3 J V T. cbn. repeat (split; [assumption||reflexivity|]). split; [eauto|]. split; [assumption|]. eauto. Qed.
Lemma in_number d s t : json d -> v3 d s -> In t ["number"; "integer"] -> named_type d t -> o_ref s = "" /\ o_type s = t
  /\ number_at d "min" (o_min s) /\ number_at d "max" (o_max s).
Proof. intros J V I0 T. destruct I0 as [<-|[<-|[]]]; inv_v3 J V T; auto. Qed.
Lemma in_array d s : json d -> v3 d s -> named_type d "array" -> o_ref s = "" /\ o_type s = "array" /\ exists x i, at_key d "items" x /\ v3 x i /\ o_items s = Some i.
Proof. intros J V T. inv_v3 J V T. cbn. repeat (split; [reflexivity|]). eauto. Qed.
Lemma in_object d s : json d -> v3 d s -> named_type d "object" -> o_ref s = "" /\ o_type s = "object" /\ o_addl s = None
  /\ texts_at d "required" (o_required s) /\ exists l ps, map_at d "properties" l /\ v3_all l ps /\ o_props s = Some ps.
Proof. intros J V T. inv_v3 J V T. cbn. repeat (split; [assumption||reflexivity|]). eauto. Qed.
Lemma in_pointer d s n : json d -> v3 d s -> sw_pointer d n -> smem "#" n = false -> o_ref s = "#/components/schemas/" +++ n /\ o_type s = "".
Proof.
  intros J V [NT R] H. assert (text_at d "type" "") as T.
  { right. split; [reflexivity|]. intros t A. destruct NT. eexists. split; [exact A|discriminate]. }
  assert (NM : forall x, d <> VStr x) by (intros x ->; now destruct R as (? & ? & _)).
  inversion V as [x|? ? ? ? ? T'|? ? ? ? ? T'|? ? ? ? ? ? ? ? T'|? ? ? ? ? ? ? T' I1|? ? ? T'|? ? ? ? r r' T' I1 _ _ _ TR M]; subst;
    [now destruct (NM x)|pose proof (text_fun _ _ _ _ J T T') as Q; try discriminate; subst..].
  - simpl in I1. intuition discriminate.
  - cbn. split; [|reflexivity]. pose proof (text_fun _ _ _ _ J (or_introl R) TR) as <-.
    exact (moved_fun _ _ _ M (mv_hit _ _ (moved_same _ H))).
Qed.
Lemma sized_one d k o : json d -> sw_length d k -> length_at d k o ->
  (o = None /\ ~ present d k) \/ exists z, o = Some z /\ fits_int64 z /\ at_key d k (VFloat64 (DFin z 0)).
Proof.
  intros J L N. destruct L as [NP|(z & A & F)].
  - left. apply (length_iff _ _ _ J) in N. apply (has_false _ _ J) in NP as H. rewrite H in N. auto.
  - right. exists z. apply (length_iff _ _ _ J) in N. assert (sw_has d k = true) as H by (apply has_iff; [exact J|]; eexists; split; [exact A|discriminate]).
    rewrite H, (get_at _ _ _ J A) in N. split; [|auto]. rewrite <- N. cbn [as_int64]. change (0 <=? 0)%Z with true. cbv iota. rewrite Z.mul_1_r. f_equal.
    unfold to_uint64. apply Z.mod_small. unfold fits_int64 in F. lia.
Qed.
Lemma absent_texts d k l : json d -> ~ present d k -> texts_at d k l -> l = [].
Proof.
  intros J N T. apply (texts_iff _ _ _ J) in T. unfold sw_strings in T. rewrite (get_schema _ _ J) in N.
  destruct (sw_get d k); try (subst; reflexivity). destruct N. discriminate.
Qed.
Lemma absent_text d k s : ~ present d k -> text_at d k s -> s = "".
Proof. intros N [A|[E _]]; [destruct N; eexists; split; [exact A|discriminate]|exact E]. Qed.
Lemma texts_strings d k vs l : json d -> at_key d k (VArr (map VStr vs)) -> texts_at d k l -> l = vs.
Proof.
  intros J A T. apply (texts_iff _ _ _ J) in T. unfold sw_strings in T. rewrite (get_at _ _ _ J A) in T. cbn [as_array] in T.
  rewrite map_map in T. cbn [as_string] in T. now rewrite map_id in T.
Qed.

Section Data.
Context (X : ext) (whole : decimal -> Prop) (timed : value -> string -> Prop).
Context (lo hi : string) (defs : list (string * value)) (ss : list (string * oas)) (K : string -> Prop).
Hypothesis JD : forall n d, In (n, d) defs -> json d.
Hypothesis OD : keys_once defs.
Hypothesis VA : v3_all defs ss.
Hypothesis PD : sw_plain_defs lo hi defs K.

Lemma pointer_ref d s n : json d -> v3 d s -> sw_pointer d n -> K n -> ref_to s n.
Proof.
  intros J V P k. destruct (PD n k) as (H & NE & _). destruct (in_pointer d s n J V P H) as [E _]. split; [exact NE|]. now left.
Qed.
Lemma item_v3 d s : json d -> v3 d s -> sw_item lo hi d -> plain_item s.
Proof.
  intros J V [T|[(T & NE & NP & NL & NH)|(t & I0 & T & B & NL & NH)]].
  - destruct (in_bool d s J V T). split; auto.
  - destruct (in_string d s J V T) as (R & TY & F & P & (l & L & ML) & H & en & E & OE). split; [exact R|]. right. left. split; [exact TY|].
    split; [rewrite OE, (absent_texts _ _ _ J NE E); reflexivity|]. split; [exact (absent_text _ _ _ NP P)|]. split.
    + destruct (sized_one _ _ _ J (or_introl NL) L) as [[-> _]|(z & _ & _ & A)]; [exact ML|]. destruct NL. eexists. split; [exact A|discriminate].
    + destruct (sized_one _ _ _ J (or_introl NH) H) as [[-> _]|(z & _ & _ & A)]; [reflexivity|]. destruct NH. eexists. split; [exact A|discriminate].
  - destruct (in_number d s t J V I0 T) as (R & TY & L & H). split; [exact R|]. right. right. split; [now rewrite TY|].
    apply (number_iff _ _ _ J) in L, H. apply (has_false _ _ J) in NL, NH. rewrite NL in L. rewrite NH in H. auto.
Qed.
Lemma plain_v3 d : sw_plain lo hi K d -> forall s, json d -> v3 d s -> plain K s.
Proof.
  revert d. fix IH 2. intros d P. destruct P as [v T|v f T NE F NF S|v f T NE F NF|v f vs T E I0 F NF NP NL NH|v f vs T E I0 F NF NP S|v t I0 T B|v i T A PI|v T NA PR RQ RIN PP]; intros s J V.
  - destruct (in_bool _ s J V T). now apply pl_bool.
  - destruct (in_string _ s J V T) as (R & TY & F' & P' & (l & L & ML) & H & en & E & OE). rewrite (text_fun _ _ _ _ J F F') in NF.
    apply pl_text; auto; [rewrite OE, (absent_texts _ _ _ J NE E); reflexivity|]. split.
    + rewrite ML. destruct (sized_one _ _ _ J (proj1 S) L) as [[-> _]|(z & -> & FZ & _)]; [unfold fits_int64; lia|exact FZ].
    + intros z E'. destruct (sized_one _ _ _ J (proj2 S) H) as [[E2 _]|(z' & E2 & FZ & _)]; congruence.
  - destruct (in_string _ s J V T) as (R & TY & F' & P' & (l & L & ML) & H & en & E & OE). rewrite (text_fun _ _ _ _ J F F') in NF.
    apply pl_formatted; auto. rewrite OE, (absent_texts _ _ _ J NE E). reflexivity.
  - destruct (in_string _ s J V T) as (R & TY & F' & P' & (l & L & ML) & H & en & E' & OE). rewrite (text_fun _ _ _ _ J F F') in NF. destruct E as [NV E].
    apply (pl_symbols K s vs); auto.
    + rewrite OE, (texts_strings _ _ _ _ J E E'). now destruct vs.
    + exact (absent_text _ _ _ NP P').
    + destruct (sized_one _ _ _ J (or_introl NL) L) as [[-> _]|(z & _ & _ & A)]; [exact ML|]. destruct NL. eexists. split; [exact A|discriminate].
    + destruct (sized_one _ _ _ J (or_introl NH) H) as [[-> _]|(z & _ & _ & A)]; [reflexivity|]. destruct NH. eexists. split; [exact A|discriminate].
  - destruct (in_string _ s J V T) as (R & TY & F' & P' & (l & L & ML) & H & en & E' & OE). rewrite (text_fun _ _ _ _ J F F') in NF. destruct E as [NV E].
    apply (pl_texts K s vs); auto.
    + rewrite OE, (texts_strings _ _ _ _ J E E'). now destruct vs.
    + exact (absent_text _ _ _ NP P').
    + split.
      * rewrite ML. destruct (sized_one _ _ _ J (proj1 S) L) as [[-> _]|(z & -> & FZ & _)]; [unfold fits_int64; lia|exact FZ].
      * intros z E2. destruct (sized_one _ _ _ J (proj2 S) H) as [[E3 _]|(z' & E3 & FZ & _)]; congruence.
  - destruct (in_number _ s t J V I0 T) as (R & TY & _). apply pl_number; [exact R|now rewrite TY].
  - destruct (in_array _ s J V T) as (R & TY & x & i' & A' & V' & OI). rewrite (at_fun _ _ _ _ J A' A) in V'.
    apply (pl_array K s i'); auto. destruct PI as [(n & P & k)|PI].
    + left. exists n. split; [|exact k]. exact (pointer_ref _ _ _ (json_at _ _ _ J A) V' P k).
    + right. exact (item_v3 _ _ (json_at _ _ _ J A) V' PI).
  - destruct (in_object _ s J V T) as (R & TY & AD & RE & l & ps & M & VP & OP).
    assert (ML : map_at v "properties" l) by exact M. apply (map_at_iff _ _ _ J) in ML.
    apply pl_object; auto.
    + intros ps' E'. rewrite OP in E'. injection E' as <-. unfold keys_once. rewrite (all_keys _ _ VP). subst l. now apply json_map.
    + intros k I0. destruct RQ as [NR|[ks A]].
      { rewrite (absent_texts _ _ _ J NR RE) in I0. destruct I0. }
      rewrite (texts_strings _ _ _ _ J A RE) in I0. destruct (RIN _ k A (in_map VStr _ _ I0)) as (l' & A' & I1).
      assert (l' = l) as -> by (subst l; unfold sw_map; now rewrite (get_at _ _ _ J A')).
      exists ps. split; [exact OP|]. now rewrite (all_keys _ _ VP).
    + intros ps' k p E' I0. rewrite OP in E'. injection E' as <-. destruct (all_right _ _ _ _ VP I0) as (x & I1 & V').
      assert (at_key v "properties" (VMap l)) as A by (destruct M as [A|[E _]]; [exact A|rewrite E in I1; destruct I1]).
      assert (json x) as Jx by (pose proof (json_at _ _ _ J A) as Jm; inversion Jm as [| | | | |? _ FA]; subst; rewrite Forall_forall in FA; exact (FA _ I1)).
      destruct (PP _ _ _ A I1) as [(n & P & kn)|P].
      * left. exists n. split; [|exact kn]. exact (pointer_ref _ _ _ Jx V' P kn).
      * right. exact (IH x P p Jx V').
Qed.
Definition regular (d : value) : Prop := sw_plain lo hi K d \/ sw_item lo hi d \/ exists n, sw_pointer d n /\ K n.
Definition with_values (d : value) : Prop := ~ present d "enum" \/ exists vs, sw_values d vs.
Lemma at_present d k x : at_key d k x -> x <> VNil -> present d k.
Proof. intros A N. exists x. auto. Qed.
Lemma pointer_untyped d n t : sw_pointer d n -> ~ named_type d t.
Proof. intros [N _] [_ T]. apply N. eapply at_present; [exact T|discriminate]. Qed.
Lemma two_types d t t' : json d -> named_type d t -> named_type d t' -> t = t'.
Proof. intros J [_ A] [_ B]. pose proof (at_fun _ _ _ _ J A B). congruence. Qed.
Ltac types J := try match goal with A : named_type ?d _, B : named_type ?d _ |- _ => pose proof (two_types d _ _ J A B); discriminate end;
  try match goal with A : sw_pointer ?d _, B : named_type ?d _ |- _ => now destruct (pointer_untyped d _ _ A B) end.
Lemma reg_string d : json d -> regular d -> named_type d "string" -> with_values d /\ forall f, text_at d "format" f -> ~ In f formats -> sw_sized d.
Proof.
  intros J R T. destruct R as [P|[P|(n & P & _)]]; [| |types J].
  - destruct P as [v T'|v f T' NE F NF S|v f T' NE F NF|v f vs T' E I0 F NF NP NL NH|v f vs T' E I0 F NF NP S|v t I0 T' B|v i T' A PI|v T' NA PR RQ RIN PP]; types J.
    + split; [now left|auto].
    + split; [now left|]. intros f' F' NF'. rewrite (text_fun _ _ _ _ J F F') in NF. contradiction.
    + split; [right; eauto|]. intros _ _ _. split; now left.
    + split; [right; eauto|auto].
    + pose proof (two_types _ _ _ J T T') as <-. simpl in I0. intuition discriminate.
  - destruct P as [T'|[(T' & NE & NP & NL & NH)|(t & I0 & T' & _)]]; types J.
    + split; [now left|]. intros _ _ _. split; now left.
    + pose proof (two_types _ _ _ J T T') as <-. simpl in I0. intuition discriminate.
Qed.
Lemma reg_number d t : json d -> regular d -> In t ["number"; "integer"] -> named_type d t -> same_bounds lo hi d.
Proof.
  intros J R I0 T. assert (t <> "boolean" /\ t <> "string" /\ t <> "array" /\ t <> "object") as (N1 & N2 & N3 & N4) by (simpl in I0; intuition (subst; discriminate)).
  destruct R as [P|[P|(n & P & _)]]; [| |types J].
  - destruct P as [v T'|v f T' NE F NF S|v f T' NE F NF|v f vs T' E I1 F NF NP NL NH|v f vs T' E I1 F NF NP S|v t' I1 T' B|v i T' A PI|v T' NA PR RQ RIN PP];
      pose proof (two_types _ _ _ J T T'); try congruence.
  - destruct P as [T'|[(T' & NE & NP & NL & NH)|(t' & I1 & T' & B & _)]]; pose proof (two_types _ _ _ J T T'); try congruence.
Qed.
Lemma reg_array d : json d -> regular d -> named_type d "array" -> exists i, at_key d "items" i /\ regular i.
Proof.
  intros J R T. destruct R as [P|[P|(n & P & _)]]; [| |types J].
  - destruct P as [v T'|v f T' NE F NF S|v f T' NE F NF|v f vs T' E I0 F NF NP NL NH|v f vs T' E I0 F NF NP S|v t I0 T' B|v i T' A PI|v T' NA PR RQ RIN PP]; types J.
    + pose proof (two_types _ _ _ J T T') as <-. simpl in I0. intuition discriminate.
    + exists i. split; [exact A|]. unfold regular. tauto.
  - destruct P as [T'|[(T' & NE & NP & NL & NH)|(t & I0 & T' & _)]]; types J. pose proof (two_types _ _ _ J T T') as <-. simpl in I0. intuition discriminate.
Qed.
Lemma reg_object d : json d -> regular d -> named_type d "object" -> ~ present d "additionalProperties"
  /\ (~ present d "required" \/ exists ks, at_key d "required" (VArr (map VStr ks)))
  /\ (forall ps k p, at_key d "properties" (VMap ps) -> In (k, p) ps -> regular p).
Proof.
  intros J R T. destruct R as [P|[P|(n & P & _)]]; [| |types J].
  - destruct P as [v T'|v f T' NE F NF S|v f T' NE F NF|v f vs T' E I0 F NF NP NL NH|v f vs T' E I0 F NF NP S|v t I0 T' B|v i T' A PI|v T' NA PR RQ RIN PP]; types J.
    + pose proof (two_types _ _ _ J T T') as <-. simpl in I0. intuition discriminate.
    + split; [exact NA|]. split; [exact RQ|]. intros ps k p A I0. unfold regular. destruct (PP _ _ _ A I0); tauto.
  - destruct P as [T'|[(T' & NE & NP & NL & NH)|(t & I0 & T' & _)]]; types J. pose proof (two_types _ _ _ J T T') as <-. simpl in I0. intuition discriminate.
Qed.
Lemma reg_ref d n : json d -> regular d -> at_key d "$ref" (VStr ("#/definitions/" +++ n)) -> sw_pointer d n /\ K n.
Proof.
  intros J R A. assert (present d "$ref") as PR by (eapply at_present; [exact A|discriminate]).
  destruct R as [P|[P|(n' & P & k)]].
  - now destruct P as [v [T' _]|v f [T' _] NE F NF S|v f [T' _] NE F NF|v f vs [T' _] E I0 F NF NP NL NH|v f vs [T' _] E I0 F NF NP S|v t I0 [T' _] B|v i [T' _] A' PI|v [T' _] NA PR' RQ RIN PP].
  - now destruct P as [[T' _]|[([T' _] & _)|(t & _ & [T' _] & _)]].
  - pose proof (at_fun _ _ _ _ J A (proj2 P)) as E. assert ("#/definitions/" +++ n = "#/definitions/" +++ n') as E' by congruence. apply append_inj_l in E' as ->. auto.
Qed.
Lemma reg_def n d : K n -> In (n, d) defs -> regular d.
Proof.
  intros k I0. destruct (PD n k) as (_ & _ & _ & d' & I1 & _ & P).
  assert (d = d') as -> by (pose proof (assoc_In_once _ _ _ OD I0); pose proof (assoc_In_once _ _ _ OD I1); congruence).
  destruct P as [P|(n' & d'' & P & k' & _)]; unfold regular; eauto.
Qed.
Lemma values_iff d s en t : json d -> with_values d -> texts_at d "enum" en -> o_enum s = match en with [] => None | _ => Some en end ->
  (in_values d t <-> forall vs, o_enum s = Some vs -> In t vs) /\ (o_enum s = None <-> ~ present d "enum").
Proof.
  intros J W E OE. destruct W as [N|(vs & NV & A)].
  - rewrite (absent_texts _ _ _ J N E) in OE. rewrite OE. split; [|tauto]. split; [discriminate|]. intros _ vs A. destruct N. eapply at_present; [exact A|discriminate].
  - rewrite (texts_strings _ _ _ _ J A E) in OE. assert (o_enum s = Some vs) as -> by (rewrite OE; now destruct vs). split.
    + split.
      * intros H vs' [= <-]. apply H in A. apply in_map_iff in A as (u & Q & I0). congruence.
      * intros H vs' A'. pose proof (at_fun _ _ _ _ J A A') as Q. injection Q as <-. apply in_map. now apply H.
    + split; [discriminate|]. intros N. destruct N. eapply at_present; [exact A|discriminate].
Qed.
Lemma min_iff d o n : json d -> sw_length d "minLength" -> length_at d "minLength" o ->
  ((forall x, at_key d "minLength" (VFloat64 x) -> dec_le x (DFin (Z.of_nat n) 0)) <-> (match o with Some z => z | None => 0%Z end <= Z.of_nat n)%Z).
Proof.
  intros J L N. destruct (sized_one _ _ _ J L N) as [[-> NP]|(z & -> & _ & A)].
  - split; [lia|]. intros _ x A. destruct NP. eapply at_present; [exact A|discriminate].
  - rewrite <- dec_le_Z. split; [auto|]. intros H x A'. pose proof (at_fun _ _ _ _ J A A') as Q. now injection Q as <-.
Qed.
Lemma max_iff d o n : json d -> sw_length d "maxLength" -> length_at d "maxLength" o ->
  ((forall x, at_key d "maxLength" (VFloat64 x) -> dec_le (DFin (Z.of_nat n) 0) x) <-> (forall z, o = Some z -> (Z.of_nat n <= z)%Z)).
Proof.
  intros J L N. destruct (sized_one _ _ _ J L N) as [[-> NP]|(z & -> & _ & A)].
  - split; [discriminate|]. intros _ x A. destruct NP. eapply at_present; [exact A|discriminate].
  - split.
    + intros H z' [= <-]. apply dec_le_Z. auto.
    + intros H x A'. pose proof (at_fun _ _ _ _ J A A') as Q. injection Q as <-. apply dec_le_Z. auto.
Qed.
Lemma pattern_iff d p t : json d -> text_at d "pattern" p -> ((forall q, at_key d "pattern" (VStr q) -> pattern_ok X q t) <-> pattern_ok X p t).
Proof.
  intros J [A|[-> N]].
  - split; [auto|]. intros H q A'. pose proof (at_fun _ _ _ _ J A A') as Q. now injection Q as <-.
  - split; [left; reflexivity|]. intros _ q A. now destruct (N q).
Qed.
Lemma bounds_iff d s x : json d -> same_bounds lo hi d -> number_at d "min" (o_min s) -> number_at d "max" (o_max s) ->
  (in_bounds lo hi d x <-> within x (o_min s) (o_max s)).
Proof.
  intros J (BL & BH & PL & PH) L H. unfold in_bounds, within.
  assert (forall b, o_min s = Some b <-> at_key d lo (VFloat64 b)) as EL.
  { intros b. rewrite <- BL. split.
    - intros E. rewrite E in L. destruct L as [[Q _]|[(y & A & Q)|(Q & y & A & N & F)]]; [discriminate|congruence|].
      destruct (PL (at_present _ _ _ A N)) as [z A']. now destruct (F z (at_fun _ _ _ _ J A A')).
    - intros A. apply (number_iff _ _ _ J) in L. rewrite (proj2 (has_iff _ _ J) (at_present _ _ _ A ltac:(discriminate))), (get_at _ _ _ J A) in L. now symmetry. }
  assert (forall b, o_max s = Some b <-> at_key d hi (VFloat64 b)) as EH.
  { intros b. rewrite <- BH. split.
    - intros E. rewrite E in H. destruct H as [[Q _]|[(y & A & Q)|(Q & y & A & N & F)]]; [discriminate|congruence|].
      destruct (PH (at_present _ _ _ A N)) as [z A']. now destruct (F z (at_fun _ _ _ _ J A A')).
    - intros A. apply (number_iff _ _ _ J) in H. rewrite (proj2 (has_iff _ _ J) (at_present _ _ _ A ltac:(discriminate))), (get_at _ _ _ J A) in H. now symmetry. }
  split; intros [A B]; (split; intros b E); [apply A; now apply EL|apply B; now apply EH|apply A; now apply EL|apply B; now apply EH].
Qed.
Notation SF := (sw_fits X whole timed true lo hi defs).
Notation FT := (fits X whole timed true ss).
Lemma sw_to_fits d v : SF d v -> forall s, json d -> v3 d s -> regular d -> FT s v.
Proof.
  induction 1 as [d n d' v A I0 _ IH|d b T|d b T|d v t f T F NF TX MI MA VA' PA|d t T F VA'|d v t T F TX U VA'|d t T F NE|d v w t T F TM TT RT VA'|d x T B|d x T W B|d l T AI IH|d l T RQ PR IH AP];
    intros s J V R.
  - destruct (reg_ref d n J R A) as [P k]. destruct (all_left _ _ _ _ VA I0) as (s' & I1 & V').
    eapply ft_ref; [exact (pointer_ref _ _ _ J V P k)|exact I1|]. apply IH; [eauto|exact V'|exact (reg_def n d' k I0)].
  - destruct (in_bool d s J V T) as [E1 E2]. apply ft_bool; [now apply no_target|exact E2].
  - destruct (in_bool d s J V T) as [E1 E2]. apply ft_pbool; [now apply no_target|exact E2].
  - destruct (in_string d s J V T) as (OR & TY & F' & P' & (l & L & ML) & H & en & E & OE). rewrite (text_fun _ _ _ _ J F F') in NF.
    destruct (reg_string d J R T) as [W S]. destruct (S _ F' NF) as [S1 S2].
    apply (ft_text X whole timed true ss s v t); [now apply no_target|exact TY|exact NF|exact TX| | | |].
    + rewrite ML. now apply (min_iff d l).
    + now apply (max_iff d (o_maxlen s)).
    + now apply (values_iff d s en t J W E OE).
    + now apply (pattern_iff d).
  - destruct (in_string d s J V T) as (OR & TY & F' & P' & _ & H & en & E & OE). destruct (reg_string d J R T) as [W S].
    apply ft_uuid; [now apply no_target|exact TY|now symmetry; apply (text_fun d "format")|now apply (values_iff d s en t J W E OE)].
  - destruct (in_string d s J V T) as (OR & TY & F' & P' & _ & H & en & E & OE). destruct (reg_string d J R T) as [W S].
    apply (ft_uuid_text X whole timed true ss s v t); [now apply no_target|exact TY|now symmetry; apply (text_fun d "format")|exact TX|exact U|now apply (values_iff d s en t J W E OE)].
  - destruct (in_string d s J V T) as (OR & TY & F' & P' & _ & H & en & E & OE). destruct (reg_string d J R T) as [W S].
    apply ft_time; [now apply no_target|exact TY|now symmetry; apply (text_fun d "format")|now apply (values_iff d s en "" J W E OE)].
  - destruct (in_string d s J V T) as (OR & TY & F' & P' & _ & H & en & E & OE). destruct (reg_string d J R T) as [W S].
    apply (ft_time_text X whole timed true ss s v w t); [now apply no_target|exact TY|now symmetry; apply (text_fun d "format")|exact TM|exact TT|exact RT|now apply (values_iff d s en w J W E OE)].
  - destruct (in_number d s "number" J V ltac:(simpl; tauto) T) as (OR & TY & L & H). apply ft_number; [now apply no_target|exact TY|].
    apply (bounds_iff d s x J (reg_number d "number" J R ltac:(simpl; tauto) T) L H). exact B.
  - destruct (in_number d s "integer" J V ltac:(simpl; tauto) T) as (OR & TY & L & H). apply ft_integer; [now apply no_target|exact TY|exact W|].
    apply (bounds_iff d s x J (reg_number d "integer" J R ltac:(simpl; tauto) T) L H). exact B.
  - destruct (in_array d s J V T) as (OR & TY & y & i & A & V' & OI). destruct (reg_array d J R T) as (i0 & A0 & R0).
    rewrite (at_fun _ _ _ _ J A0 A) in R0.
    apply ft_array; [now apply no_target|exact TY|]. intros i' x E I0. rewrite OI in E. injection E as <-. apply (IH y x A I0 i (json_at _ _ _ J A) V' R0).
  - destruct (in_object d s J V T) as (OR & TY & AD & RE & pl & ps & M & VP & OP). destruct (reg_object d J R T) as (NA & RQ' & RP).
    apply ft_object; [now apply no_target|exact TY| | |].
    + intros k I0. destruct RQ' as [NR|[ks A]]; [rewrite (absent_texts _ _ _ J NR RE) in I0; destruct I0|]. rewrite (texts_strings _ _ _ _ J A RE) in I0.
      apply (RQ _ k A). now apply in_map.
    + intros ps' k p x E I0 I1. rewrite OP in E. injection E as <-. destruct (all_right _ _ _ _ VP I0) as (y & I2 & V').
      assert (at_key d "properties" (VMap pl)) as A by (destruct M as [A|[E _]]; [exact A|rewrite E in I2; destruct I2]).
      apply (IH _ _ _ _ A I2 I1); [|exact V'|exact (RP _ _ _ A I2)].
      pose proof (json_at _ _ _ J A) as Jm; inversion Jm as [| | | | |? _ FA]; subst; rewrite Forall_forall in FA; exact (FA _ I2).
    + intros k x I0 NK. exfalso. destruct (AP k x I0) as [(a & A & _)|[A|[_ A]]]; [| | |discriminate].
      * intros pl' A NI. apply (NK ps OP). rewrite (all_keys _ _ VP). replace pl with pl'; [exact NI|].
        apply (map_at_iff _ _ _ J) in M. unfold sw_map in M. now rewrite (get_at _ _ _ J A) in M.
      * apply NA. eapply at_present; [exact A|discriminate].
      * apply NA. eapply at_present; [exact A|discriminate].
Qed.
Lemma reg_type d : regular d -> (exists n, sw_pointer d n /\ K n) \/ exists t, In t ("object" :: "array" :: plain_types) /\ named_type d t.
Proof.
  intros [P|[P|P]]; [| |now left]; right.
  - destruct P as [v T|v f T NE F NF S|v f T NE F NF|v f vs T E I0 F NF NP NL NH|v f vs T E I0 F NF NP S|v t I0 T B|v i T A PI|v T NA PR RQ RIN PP];
      try (eexists; split; [|exact T]; simpl; tauto). exists t. split; [simpl in *; tauto|exact T].
  - destruct P as [T|[(T & _)|(t & I0 & T & _)]]; try (eexists; split; [|exact T]; simpl; tauto). exists t. split; [simpl in *; tauto|exact T].
Qed.
Lemma typed_v3 d s t : json d -> v3 d s -> In t ("object" :: "array" :: plain_types) -> named_type d t -> o_type s = t /\ o_ref s = "".
Proof.
  intros J V I0 T. destruct I0 as [<-|[<-|[<-|[<-|[<-|[<-|[]]]]]]].
  - destruct (in_object d s J V T) as (A & B & _). auto.
  - destruct (in_array d s J V T) as (A & B & _). auto.
  - destruct (in_string d s J V T) as (A & B & _). auto.
  - destruct (in_number d s "integer" J V ltac:(simpl; tauto) T) as (A & B & _). auto.
  - destruct (in_number d s "number" J V ltac:(simpl; tauto) T) as (A & B & _). auto.
  - destruct (in_bool d s J V T). auto.
Qed.
Lemma untargeted d s : json d -> v3 d s -> regular d -> ~ has_target s -> named_type d (o_type s).
Proof.
  intros J V R N. destruct (reg_type d R) as [(n & P & k)|(t & I0 & T)].
  - destruct N. exists n. exact (pointer_ref _ _ _ J V P k).
  - now rewrite (proj1 (typed_v3 d s t J V I0 T)).
Qed.
Lemma fits_to_sw s v : FT s v -> forall d, json d -> v3 d s -> regular d -> SF d v.
Proof.
  induction 1 as [s n s' v RT I0 _ IH|s b NT T|s b NT T|s v t NT T NF TX MI MA VA' PA|s t NT T F VA'|s v t NT T F TX U VA'|s t NT T F NE|s v w t NT T F TM TT RT VA'|s x NT T B|s x NT T W B|s l NT T AI IH|s l NT T RQ PR IH AP];
    intros d J V R; try (pose proof (untargeted d s J V R NT) as TY; rewrite T in TY; rename T into OT; rename TY into T).
  - destruct (reg_type d R) as [(n' & P & k)|(t & I1 & T)].
    + destruct (all_right _ _ _ _ VA I0) as (d' & I1 & V'). assert (n' = n) as ->.
      { destruct (pointer_ref _ _ _ J V P k) as [_ [E|[_ N]]].
        - destruct RT as [_ [E'|[_ N']]]; [|now destruct N'; exists n']. rewrite E in E'. now apply append_inj_l in E'.
        - destruct (PD n' k) as (H & _). destruct (in_pointer d s n' J V P H) as [E _]. now destruct N; exists n'. }
      eapply sf_ref; [exact (proj2 P)|exact I1|]. apply IH; [eauto|exact V'|exact (reg_def n d' k I1)].
    + destruct (typed_v3 d s t J V I1 T) as [_ E]. destruct (no_target s E). now exists n.
  - now apply sf_bool.
  - now apply sf_pbool.
  - destruct (in_string d s J V T) as (OR & TY & F' & P' & (l & L & ML) & H & en & E & OE).
    destruct (reg_string d J R T) as [W S]. destruct (S _ F' NF) as [S1 S2].
    apply (sf_text X whole timed true lo hi defs d v t (o_format s)); [exact T|exact F'|exact NF|exact TX| | | |].
    + apply (min_iff d l); auto. now rewrite <- ML.
    + now apply (max_iff d (o_maxlen s)).
    + now apply (values_iff d s en t J W E OE).
    + now apply (pattern_iff d (o_pattern s)).
  - destruct (in_string d s J V T) as (OR & TY & F' & P' & _ & H & en & E & OE). destruct (reg_string d J R T) as [W S]. rewrite F in F'.
    apply sf_uuid; [exact T|exact F'|now apply (values_iff d s en t J W E OE)].
  - destruct (in_string d s J V T) as (OR & TY & F' & P' & _ & H & en & E & OE). destruct (reg_string d J R T) as [W S]. rewrite F in F'.
    apply (sf_uuid_text X whole timed true lo hi defs d v t); [exact T|exact F'|exact TX|exact U|now apply (values_iff d s en t J W E OE)].
  - destruct (in_string d s J V T) as (OR & TY & F' & P' & _ & H & en & E & OE). destruct (reg_string d J R T) as [W S]. rewrite F in F'.
    apply sf_time; [exact T|exact F'|now apply (values_iff d s en "" J W E OE)].
  - destruct (in_string d s J V T) as (OR & TY & F' & P' & _ & H & en & E & OE). destruct (reg_string d J R T) as [W S]. rewrite F in F'.
    apply (sf_time_text X whole timed true lo hi defs d v w t); [exact T|exact F'|exact TM|exact TT|exact RT|now apply (values_iff d s en w J W E OE)].
  - destruct (in_number d s "number" J V ltac:(simpl; tauto) T) as (OR & TY & L & H). apply sf_number; [exact T|].
    apply (bounds_iff d s x J (reg_number d "number" J R ltac:(simpl; tauto) T) L H). exact B.
  - destruct (in_number d s "integer" J V ltac:(simpl; tauto) T) as (OR & TY & L & H). apply sf_integer; [exact T|exact W|].
    apply (bounds_iff d s x J (reg_number d "integer" J R ltac:(simpl; tauto) T) L H). exact B.
  - destruct (in_array d s J V T) as (OR & TY & y & i & A & V' & OI). destruct (reg_array d J R T) as (i0 & A0 & R0).
    rewrite (at_fun _ _ _ _ J A0 A) in R0.
    apply sf_array; [exact T|]. intros i' x A' I0. rewrite (at_fun _ _ _ _ J A' A). exact (IH i x OI I0 y (json_at _ _ _ J A) V' R0).
  - destruct (in_object d s J V T) as (OR & TY & AD & RE & pl & ps & M & VP & OP). destruct (reg_object d J R T) as (NA & RQ' & RP).
    apply sf_object; [exact T| | |].
    + intros a k A I0. apply RQ. destruct RQ' as [NR|[ks A']]; [destruct NR; eapply at_present; [exact A|discriminate]|].
      rewrite (texts_strings _ _ _ _ J A' RE). pose proof (at_fun _ _ _ _ J A A') as Q. injection Q as ->. apply in_map_iff in I0 as (u & Q & I0). congruence.
    + intros pl' k p x A I0 I1. assert (pl' = pl) as -> by (apply (map_at_iff _ _ _ J) in M; unfold sw_map in M; now rewrite (get_at _ _ _ J A) in M).
      destruct (all_left _ _ _ _ VP I0) as (q & I2 & V'). apply (IH _ _ _ _ OP I2 I1); [|exact V'|exact (RP _ _ _ A I0)].
      pose proof (json_at _ _ _ J A) as Jm; inversion Jm as [| | | | |? _ FA]; subst; rewrite Forall_forall in FA; exact (FA _ I0).
    + intros k x I0 NK. exfalso. destruct (AP k x I0) as [(a & E & _)|[_ E]]; [|congruence|discriminate].
      intros ps' E I1. rewrite OP in E. injection E as <-. rewrite (all_keys _ _ VP) in I1.
      destruct M as [A|[E _]]; [exact (NK _ A I1)|rewrite E in I1; destruct I1].
Qed.
Lemma defs_v3 : plain_defs ss K.
Proof.
  intros n k. destruct (PD n k) as (H & NE & ND & d & I0 & NT & P). destruct (all_left _ _ _ _ VA I0) as (s & I1 & V). exists s. split; [exact I1|].
  pose proof (JD _ _ I0) as J. split.
  - split; [exact NE|]. split; [exact ND|]. intros E OT. apply (NT E). rewrite <- OT.
    apply (untargeted d s J V (reg_def n d k I0)). intros HT.
    destruct P as [P|(n' & d' & P & k' & _)].
    + pose proof (plain_v3 d P s J V) as PS. apply (no_target s); [|exact HT]. now apply plain_ref in PS.
    + destruct (PD n' k') as (H' & _). destruct (in_pointer d s n' J V P H') as [_ E']. congruence.
  - destruct P as [P|(n' & d' & P & k' & I2 & P')].
    + left. exact (plain_v3 d P s J V).
    + right. destruct (all_left _ _ _ _ VA I2) as (s' & I3 & V'). exists n', s'. split; [exact (pointer_ref _ _ _ J V P k')|]. split; [exact I3|]. exact (plain_v3 d' P' s' (JD _ _ I2) V').
Qed.
End Data.

Theorem swagger_data name l m lo hi ds K : json (VMap l) -> import_swagger name (Some l) = Ok m -> at_key (VMap l) "definitions" (VMap ds) -> sw_plain_defs lo hi ds K ->
  forall X ctx n d v, K n -> In (n, d) ds -> vwf v ->
  ((exists k, validate X m k ctx n v = Ok tt) <-> sw_fits X (fun _ => True) (fun v s => v = VPStr s) true lo hi ds d v).
Proof.
  intros J H A PD X ctx n d v k I0 W. unfold import_swagger in H. apply rbind_Ok in H as ([i doc] & L & H). cbn [load_swagger] in L.
  apply (doc_iff _ _ _ J) in L as (_ & _ & cs & ps & ds' & pl & _ & _ & M & _ & VA & _).
  assert (ds' = ds) as -> by (apply (map_at_iff _ _ _ J) in M; unfold sw_map in M; now rewrite (get_at _ _ _ J A) in M).
  pose proof (json_at _ _ _ J A) as JM. inversion JM as [| | | | |? OD FA]; subst. rewrite Forall_forall in FA.
  assert (JD : forall n d, In (n, d) ds -> json d) by (intros n' d' I1; exact (FA _ I1)).
  assert (KS : keys_once (od_schemas doc)) by (unfold keys_once; rewrite (all_keys _ _ VA); exact OD).
  destruct (all_left _ _ _ _ VA I0) as (s & I1 & V).
  rewrite (read_data name i doc m K KS H (defs_v3 (fun _ _ => True) lo hi ds (od_schemas doc) K JD OD VA PD) X ctx n s v k I1 W).
  pose proof (reg_def lo hi ds K OD PD n d k I0) as R. split; intros F.
  - exact (fits_to_sw X (fun _ => True) (fun v s => v = VPStr s) lo hi ds (od_schemas doc) K JD OD VA PD s v F d (JD _ _ I0) V R).
  - exact (sw_to_fits X (fun _ => True) (fun v s => v = VPStr s) lo hi ds (od_schemas doc) K JD OD VA PD d v F s (JD _ _ I0) V R).
Qed.

(** ** Operations of a document and of its translation *)
Lemma Forall2_keys {A B} (R : string * A -> string * B -> Prop) l q : (forall x y, R x y -> fst y = fst x) -> Forall2 R l q -> map fst q = map fst l.
Proof. intros F. induction 1; simpl; [reflexivity|]. f_equal; auto. Qed.
Lemma Forall2_left {A B} (R : A -> B -> Prop) l q x : Forall2 R l q -> In x l -> exists y, In y q /\ R x y.
Proof. induction 1 as [|a b l q H F IH]; [intros []|]. intros [<- |I0]; [exists b; simpl; auto|]. destruct (IH I0) as (y & I1 & H1). exists y. simpl. auto. Qed.
Lemma Forall2_right {A B} (R : A -> B -> Prop) l q y : Forall2 R l q -> In y q -> exists x, In x l /\ R x y.
Proof. induction 1 as [|a b l q H F IH]; [intros []|]. intros [<- |I0]; [exists a; simpl; auto|]. destruct (IH I0) as (x & I1 & H1). exists x. simpl. auto. Qed.
Lemma item_keys cs ps v ms pi : item_of cs ps v ms pi -> NoDup (map snd ms) -> NoDup (map fst pi) /\ forall k, In k (map fst pi) -> In k (map snd ms).
Proof.
  induction 1 as [|k mth r pi N H IH|k mth r pi x op A N O H IH]; simpl; intros ND; [split; [constructor|intros ? []]| |]; inversion ND as [|? ? NI ND']; subst; destruct (IH ND') as [P Q].
  - split; [exact P|]. auto.
  - split; [constructor; auto|]. intros k' [<- |I0]; auto.
Qed.
Lemma item_in cs ps v ms pi mth op : item_of cs ps v ms pi -> In (mth, op) pi -> exists k x, In (k, mth) ms /\ at_key v k x /\ x <> VNil /\ operation_of cs ps x op.
Proof.
  induction 1 as [|k m r pi N H IH|k m r pi x o A N O H IH]; [intros []| |].
  - intros I0. destruct (IH I0) as (k' & x & I1 & R). exists k', x. simpl. auto.
  - intros [E|I0].
    + injection E as -> ->. exists k, x. simpl. auto.
    + destruct (IH I0) as (k' & x' & I1 & R). exists k', x'. simpl. auto.
Qed.
Lemma item_out cs ps v ms pi k mth x : json v -> item_of cs ps v ms pi -> In (k, mth) ms -> at_key v k x -> x <> VNil -> exists op, In (mth, op) pi /\ operation_of cs ps x op.
Proof.
  intros J. induction 1 as [|k' m r pi N H IH|k' m r pi y o A N O H IH]; [intros []| |]; intros [E|I0] AK NX.
  - injection E as -> ->. destruct N. now exists x.
  - now apply IH.
  - injection E as -> ->. rewrite (at_fun _ _ _ _ J AK A). exists o. simpl. auto.
  - destruct (IH I0 AK NX) as (op & I1 & Q). exists op. simpl. auto.
Qed.
Lemma response_keys media l rs : Forall2 (response_of media) l rs -> map fst rs = map fst l.
Proof. apply Forall2_keys. intros x y (d & hl & hs & o & _ & _ & _ & _ & ->). reflexivity. Qed.
Lemma operation_keys cs ps v op : json v -> operation_of cs ps v op -> map fst (oo_responses op) = map fst (sw_map v "responses") /\ keys_once (oo_responses op).
Proof.
  intros J (id & sm & tags & c & l & params & body & req & prs & rl & rs & _ & _ & _ & _ & _ & _ & _ & _ & M & R & ->). cbn [oo_responses].
  apply (map_at_iff _ _ _ J) in M. subst rl. pose proof (response_keys _ _ _ R) as E. split; [exact E|]. unfold keys_once. rewrite E. now apply json_map.
Qed.
Section Doc.
Context (v : value) (doc : oasdoc) (J : json v) (D : doc_of v doc).
Lemma doc_op_in p mth op : doc_op doc p mth op -> exists key x cs ps, In (key, mth) sw_keys /\ sw_operation v p key x /\ texts_at v "consumes" cs /\ texts_at v "produces" ps /\ operation_of cs ps x op /\ json x.
Proof.
  destruct D as (cs & ps & ds & pl & CS & PS & _ & M & _ & F). intros (pi & I0 & I1). destruct (Forall2_right _ _ _ _ F I0) as ([p' item] & I2 & E & I3). cbn [fst snd] in *. subst p'.
  destruct (item_in _ _ _ _ _ _ _ I3 I1) as (k & x & I4 & A & N & O). exists k, x, cs, ps.
  assert (at_key v "paths" (VMap pl)) as AP by (destruct M as [AP|[E _]]; [exact AP|rewrite E in I2; destruct I2]).
  assert (json item) as Ji by (pose proof (json_at _ _ _ J AP) as Jm; inversion Jm as [| | | | |? _ FA]; subst; rewrite Forall_forall in FA; exact (FA _ I2)).
  split; [exact I4|]. split; [|split; [exact CS|split; [exact PS|split; [exact O|exact (json_at _ _ _ Ji A)]]]]. exists pl, item. repeat (split; [assumption|]). split; [|auto]. apply in_map_iff. now exists (k, mth).
Qed.
Lemma doc_op_out p key mth x : sw_operation v p key x -> In (key, mth) sw_keys -> exists op cs ps, doc_op doc p mth op /\ texts_at v "consumes" cs /\ texts_at v "produces" ps /\ operation_of cs ps x op.
Proof.
  destruct D as (cs & ps & ds & pl & CS & PS & _ & M & _ & F). intros (pl' & item & AP & I0 & I1 & A & N) I2.
  assert (pl' = pl) as -> by (apply (map_at_iff _ _ _ J) in M; unfold sw_map in M; now rewrite (get_at _ _ _ J AP) in M).
  destruct (Forall2_left _ _ _ _ F I0) as ([p' pi] & I3 & E & I4). cbn [fst snd] in *. subst p'.
  assert (json item) as Ji by (pose proof (json_at _ _ _ J AP) as Jm; inversion Jm as [| | | | |? _ FA]; subst; rewrite Forall_forall in FA; exact (FA _ I0)).
  destruct (item_out _ _ _ _ _ _ _ _ Ji I4 I2 A N) as (op & I5 & O). exists op, cs, ps. split; [now exists pi|auto].
Qed.
Lemma doc_once : keys_once (od_schemas doc) /\ keys_once (od_paths doc) /\ doc_maps doc.
Proof.
  destruct D as (cs & ps & ds & pl & CS & PS & MD & M & VA & F).
  assert (KS : keys_once (od_schemas doc)).
  { unfold keys_once. rewrite (all_keys _ _ VA). apply (map_at_iff _ _ _ J) in MD. subst ds. now apply json_map. }
  split; [exact KS|]. split.
  - unfold keys_once. rewrite (Forall2_keys _ _ _ (fun x y H => proj1 H) F). apply (map_at_iff _ _ _ J) in M. subst pl. now apply json_map.
  - split; [exact KS|]. intros t pi I0. destruct (Forall2_right _ _ _ _ F I0) as ([p' item] & I2 & E & I3). cbn [fst snd] in *. subst p'.
    split; [apply (item_keys _ _ _ _ _ I3); vm_compute; repeat constructor; simpl; intuition discriminate|].
    intros mth op I1. destruct (doc_op_in t mth op) as (k & x & cs' & ps' & _ & _ & _ & _ & O & Jx); [now exists pi|]. exact (proj2 (operation_keys _ _ _ _ Jx O)).
Qed.
Lemma doc_success : sw_one_success v -> doc_one_success doc.
Proof.
  intros H p mth op I0 k k'. destruct (doc_op_in p mth op I0) as (key & x & cs & ps & _ & O & _ & _ & OP & Jx).
  rewrite (proj1 (operation_keys _ _ _ _ Jx OP)). intros I1 I2.
  assert (map_at x "responses" (sw_map x "responses")) as [A|[E _]] by (now apply map_at_iff); [|rewrite E in I1; destruct I1].
  exact (H p key x _ k k' O A I1 I2).
Qed.
End Doc.
Lemma doc_of_fun v d d' : json v -> text_at v "swagger" "2.0" -> doc_of v d -> doc_of v d' -> d = d'.
Proof.
  intros J T A B. pose proof (proj2 (doc_iff v (v3_info v) d J) (conj T (conj eq_refl A))) as E.
  rewrite (proj2 (doc_iff v (v3_info v) d' J) (conj T (conj eq_refl B))) in E. congruence.
Qed.
Lemma swagger_readable name l : json (VMap l) -> sw_one_success (VMap l) ->
  ((exists m, import_swagger name (Some l) = Ok m) <-> text_at (VMap l) "swagger" "2.0" /\ exists doc, doc_of (VMap l) doc /\ doc_readable doc).
Proof.
  intros J OS. unfold import_swagger. cbn [load_swagger]. split.
  - intros [m H]. apply rbind_Ok in H as ([i doc] & L & H). apply (doc_iff _ _ _ J) in L as (T & _ & D). split; [exact T|]. exists doc. split; [exact D|].
    destruct (doc_once _ _ J D) as (_ & KP & DM). apply (readable_iff name i doc KP DM (doc_success _ _ J D OS)). now exists m.
  - intros (T & doc & D & R). rewrite (proj2 (doc_iff _ (v3_info (VMap l)) doc J)) by auto. cbn [rbind].
    destruct (doc_once _ _ J D) as (_ & KP & DM). exact (proj2 (readable_iff name _ doc KP DM (doc_success _ _ J D OS)) R).
Qed.
Lemma swagger_inv name l m : json (VMap l) -> import_swagger name (Some l) = Ok m -> exists doc, doc_of (VMap l) doc /\ to_sadl name (v3_info (VMap l)) doc = Ok m.
Proof.
  intros J H. unfold import_swagger in H. apply rbind_Ok in H as ([i doc] & L & H). cbn [load_swagger] in L. apply (doc_iff _ _ _ J) in L as (_ & -> & D). eauto.
Qed.
(** ** Types and actions *)
Lemma swagger_types name l m ds : json (VMap l) -> import_swagger name (Some l) = Ok m -> map_at (VMap l) "definitions" ds ->
  (forall n d s, In (n, d) ds -> v3 d s -> def_kept n s -> exists td, In td (sc_types (m_schema m)) /\ sw_type ds n d td)
  /\ (forall td, In td (sc_types (m_schema m)) -> exists n d s, In (n, d) ds /\ v3 d s /\ def_kept n s /\ sw_type ds n d td).
Proof.
  intros J H M. destruct (swagger_inv _ _ _ J H) as (doc & D & T). destruct (doc_once _ _ J D) as (KS & _ & _).
  destruct D as (cs & ps & ds' & pl & _ & _ & M' & _ & VA & _).
  assert (ds' = ds) as -> by (apply (map_at_iff _ _ _ J) in M, M'; congruence).
  assert (JD : forall n d, In (n, d) ds -> json d) by (apply (map_at_iff _ _ _ J) in M; subst ds; now apply json_map).
  destruct (types_read _ _ _ _ KS T) as [A B]. split.
  - intros n d s I0 V K. destruct (all_left _ _ _ _ VA I0) as (s' & I1 & V').
    assert (s' = s) as -> by (apply (v3_iff _ _ (JD _ _ I0)) in V, V'; congruence).
    destruct (A n s I1 K) as (td & I2 & TO). exists td. split; [exact I2|]. exists (od_schemas doc), s. auto.
  - intros td I0. destruct (B td I0) as (n & s & I1 & K & TO). destruct (all_right _ _ _ _ VA I1) as (d & I2 & V). exists n, d, s. repeat (split; [assumption|]). exists (od_schemas doc), s. auto.
Qed.
Lemma swagger_actions name l m : json (VMap l) -> import_swagger name (Some l) = Ok m ->
  (forall p key mth x, sw_operation (VMap l) p key x -> In (key, mth) sw_read -> (~ exists r, p = "x-" +++ r) -> exists h, In h (sc_http (m_schema m)) /\ sw_action (VMap l) p mth x h)
  /\ (forall h, In h (sc_http (m_schema m)) -> exists p key mth x, sw_operation (VMap l) p key x /\ In (key, mth) sw_read /\ (~ exists r, p = "x-" +++ r) /\ sw_action (VMap l) p mth x h).
Proof.
  intros J H. destruct (swagger_inv _ _ _ J H) as (doc & D & T). destruct (doc_once _ _ J D) as (_ & KP & DM). destruct (actions_read _ _ _ _ KP DM T) as [A B]. split.
  - intros p key mth x O I0 NX. assert (In (key, mth) sw_keys) as I1 by (simpl in *; tauto).
    destruct (doc_op_out _ _ J D p key mth x O I1) as (op & cs & ps & DO & CS & PS & OO).
    destruct (A p mth op) as (h & I2 & AO); [split; [exact DO|split; [|exact NX]]|].
    { simpl in I0. repeat (destruct I0 as [I0|I0]; [injection I0 as <- <-; simpl; tauto|]). destruct I0. }
    exists h. split; [exact I2|]. exists cs, ps, op. auto.
  - intros h I0. destruct (B h I0) as (p & mth & op & (DO & IM & NX) & AO). destruct (doc_op_in _ _ J D p mth op DO) as (key & x & cs & ps & I1 & O & CS & PS & OO & _).
    exists p, key, mth, x. split; [exact O|]. split; [|split; [exact NX|exists cs, ps, op; auto]].
    simpl in I1. repeat (destruct I1 as [I1|I1]; [injection I1 as <- <-; simpl in *; intuition discriminate|]). destruct I1.
Qed.
(** ** The head *)
Lemma inside_iff v k k' s : json v -> (inside v k k' s <-> sw_string (sw_get v k) k' = s).
Proof.
  intros J. unfold inside. split.
  - intros [(x & A & T)|[-> N]].
    + rewrite (get_at _ _ _ J A). now apply text_iff; [exact (json_at _ _ _ J A)|].
    + destruct (match sw_get v k with VNil => true | _ => false end) eqn:Z.
      * destruct (sw_get v k); try discriminate. reflexivity.
      * destruct (N (sw_get v k)). apply at_get; [reflexivity|]. intros E. rewrite E in Z. discriminate.
  - intros <-. destruct (match v with VMap l => match assoc k l with Some x => true | None => false end | _ => false end) eqn:Z.
    + destruct v as [| | | | | | | | | | | | |l]; try discriminate. destruct (assoc k l) as [x|] eqn:A; [|discriminate]. left. exists x.
      assert (at_key (VMap l) k x) as AK by (exists l; split; [reflexivity|now apply assoc_Some_In]). split; [exact AK|]. rewrite (get_at _ _ _ J AK). apply text_iff; [exact (json_at _ _ _ J AK)|reflexivity].
    + right. assert (forall x, ~ at_key v k x) as N.
      { intros x (l & -> & I0). rewrite (assoc_In_once _ _ _ (json_once _ J) I0) in Z. discriminate. }
      split; [|exact N]. destruct (match sw_get v k with VNil => true | _ => false end) eqn:Z'.
      * destruct (sw_get v k); try discriminate. reflexivity.
      * destruct (N (sw_get v k)). apply at_get; [reflexivity|]. intros E. rewrite E in Z'. discriminate.
Qed.
Lemma license_iff v k s : json v -> (license_of v k s <-> sw_string (sw_get (sw_get v "info") "license") k = s).
Proof.
  intros J. unfold license_of. split.
  - intros [(x & A & T)|[-> N]].
    + rewrite (get_at _ _ _ J A). now apply inside_iff; [exact (json_at _ _ _ J A)|].
    + destruct (match sw_get v "info" with VNil => true | _ => false end) eqn:Z.
      * destruct (sw_get v "info"); try discriminate. reflexivity.
      * destruct (N (sw_get v "info")). apply at_get; [reflexivity|]. intros E. rewrite E in Z. discriminate.
  - intros <-. destruct (match v with VMap l => match assoc "info" l with Some x => true | None => false end | _ => false end) eqn:Z.
    + destruct v as [| | | | | | | | | | | | |l]; try discriminate. destruct (assoc "info" l) as [x|] eqn:A; [|discriminate]. left. exists x.
      assert (at_key (VMap l) "info" x) as AK by (exists l; split; [reflexivity|now apply assoc_Some_In]). split; [exact AK|]. rewrite (get_at _ _ _ J AK). apply inside_iff; [exact (json_at _ _ _ J AK)|reflexivity].
    + right. assert (forall x, ~ at_key v "info" x) as N.
      { intros x (l & -> & I0). rewrite (assoc_In_once _ _ _ (json_once _ J) I0) in Z. discriminate. }
      split; [|exact N]. destruct (match sw_get v "info" with VNil => true | _ => false end) eqn:Z'.
      * destruct (sw_get v "info"); try discriminate. reflexivity.
      * destruct (N (sw_get v "info")). apply at_get; [reflexivity|]. intros E. rewrite E in Z'. discriminate.
Qed.
Lemma swagger_head name l m : json (VMap l) -> import_swagger name (Some l) = Ok m -> sw_head name (VMap l) (m_schema m).
Proof.
  intros J H. destruct (swagger_inv _ _ _ J H) as (doc & D & T). clear H. set (v := VMap l) in *.
  unfold to_sadl, import_schema in T. apply rbind_Ok in T as (s & T & NM). apply rbind_Ok in T as (tds & _ & T). apply rbind_Ok in T as (hs & _ & Q). injection Q as <-.
  match type of NM with context [new_model ?x] => destruct (new_model x) as [m0| | |] eqn:M; try discriminate end. injection NM as <-. rewrite (proj1 (new_model_inv _ _ M)). clear M m0.
  eexists _, _, _, _, _, _, _. rewrite !(inside_iff _ _ _ _ J), !(license_iff _ _ _ J), !(text_iff _ _ _ J). do 7 (split; [reflexivity|]).
  cbn [sc_name sc_comment sc_version sc_annos sc_namespace sc_base oi_title oi_desc oi_version v3_info].
  set (t := sw_string (sw_get v "info") "title").
  split; [intros I; assert (I' := proj2 (is_symbol_iff _) I); rewrite I'; destruct (t =?s "") eqn:E; [apply seqb_eq in E; rewrite E in I'; discriminate|]; auto|].
  split; [intros ->; auto|].
  split; [intros NE NI; destruct (t =?s "") eqn:E; [apply seqb_eq in E; contradiction|]; destruct (is_symbol t) eqn:S; [exfalso; apply NI, is_symbol_iff; exact S|]; auto|].
  split; [reflexivity|]. split; [|auto]. intros k w. rewrite <- (has_iff _ _ J).
  unfold import_annos, v3_info. cbn [oi_openapi oi_servers oi_license].
  set (n := sw_string (sw_get (sw_get v "info") "license") "name"). set (u := sw_string (sw_get (sw_get v "info") "license") "url").
  set (sv := "https://" +++ sw_string v "host" +++ sw_string v "basePath").
  assert (forall o : string, ((k, w) = ("x_license_name", o) /\ o <> "" <-> k = "x_license_name" /\ w = o /\ w <> "")) as RN by (intros o; split; [intros [Q NE]; injection Q as -> ->; auto|intros (-> & -> & NE); auto]).
  destruct (sw_has v "host"), (n =?s "") eqn:EN, (u =?s "") eqn:EU; cbn; rewrite ?seqb_eq, ?seqb_neq in *;
    (split; [intros I0; repeat (destruct I0 as [I0|I0]; [injection I0 as <- <-; tauto|]); destruct I0
            |intros [[-> ->]|[(-> & Q & ->)|[(-> & -> & NE)|(-> & -> & NE)]]]; try discriminate; try congruence; tauto]).
Qed.
