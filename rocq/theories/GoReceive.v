(** What the handlers of the generated Go server receive. *)
From Verif Require Import GoStr Outcome Value Schema Scalars Model SpecTime SpecMisc SpecModel SpecPV SpecTrace SpecGo SpecGoServer SpecGoClient SpecGoCall
  ModelFacts TimeFacts PVFacts TraceFill GoServerFacts.
From Coq Require Import Lia.
Local Open Scope Z_scope.

Lemma digits_fun d n n' : digits d n -> digits d n' -> n = n'.
Proof. intros A B. apply digits_dv in A as [_ A]. apply digits_dv in B as [_ B]. congruence. Qed.
Lemma digits_head c s n : digits (String c s) n -> exists k, 0 <= k < 10 /\ Z.of_nat (nat_of_ascii c) = 48 + k.
Proof.
  intros H. remember (String c s) as x eqn:E. revert c s E. induction H as [c' k K E'|s' m c' k H IH K E']; intros c s E.
  - injection E as -> _. eauto.
  - destruct s' as [|c0 s']; [apply digits_dv in H as [H _]; now destruct H|]. cbn in E. injection E as -> _. eapply IH. reflexivity.
Qed.
Lemma digits_not_sign c s n : In c ["+"; "-"]%char -> ~ digits (String c s) n.
Proof. intros [<- |[<- |[]]] H; apply digits_head in H as (k & K & E); cbn in E; lia. Qed.
Lemma numeral_fun s z z' : numeral s z -> numeral s z' -> z = z'.
Proof.
  intros (d & D & _ & [[N ->]|[N ->]]) (d' & D' & _ & [[N' E]|[N' E]]).
  - assert (d = d') as <- by (injection E as E; exact E). assert (X := digits_fun _ _ _ D D'). lia.
  - subst d'. destruct (digits_not_sign "-" d (Z.abs z')); [cbn; tauto|exact D'].
  - subst d. destruct (digits_not_sign "-" d' (Z.abs z)); [cbn; tauto|exact D].
  - subst d'. assert (X := digits_fun _ _ _ D D'). lia.
Qed.
Lemma int_text_fun s z z' : int_text s z -> int_text s z' -> z = z'.
Proof.
  intros (d & n & D & [[[-> | ->] ->]|[-> ->]]) (d' & n' & D' & [[[E|E] ->]|[E ->]]); try discriminate E; try subst d; try subst d';
    try match goal with
    | H : digits ("+" +++ ?x) _ |- _ => destruct (digits_not_sign "+" x _ (or_introl eq_refl) H)
    | H : digits ("-" +++ ?x) _ |- _ => destruct (digits_not_sign "-" x _ (or_intror (or_introl eq_refl)) H)
    end; try (injection E as ->); try f_equal; exact (digits_fun _ _ _ D D').
Qed.
Lemma int_text_empty z : ~ int_text "" z.
Proof.
  intros (d & n & D & [[[E|E] _]|[E _]]); try discriminate. subst d. apply digits_dv in D as [D _]. now destruct D.
Qed.
Lemma numeral_int s z : numeral s z -> int_text s z.
Proof.
  intros (d & D & _ & [[N ->]|[N ->]]); exists d, (Z.abs z); (split; [exact D|]); [right|left]; (split; [|lia]); auto.
Qed.
Lemma widths_cases t b : In (t, b) widths -> (t = "Int8" /\ b = 8) \/ (t = "Int16" /\ b = 16) \/ (t = "Int32" /\ b = 32) \/ (t = "Int64" /\ b = 64).
Proof. cbn. intuition congruence. Qed.
Lemma widths_fun t b b' : In (t, b) widths -> In (t, b') widths -> b = b'.
Proof. intros A B. apply widths_cases in A. apply widths_cases in B. intuition (try lia; congruence). Qed.
Lemma widths_range t b : In (t, b) widths -> 0 < b <= 64.
Proof. intros A. apply widths_cases in A. lia. Qed.
Lemma wraps_fun b i z z' : 0 < b -> wraps b i z -> wraps b i z' -> z = z'.
Proof.
  unfold wraps, in_bits. intros B (R & k & E) (R' & k' & E'). assert (P : 2 ^ b = 2 * 2 ^ (b - 1)).
  { rewrite <- Z.pow_succ_r by lia. f_equal. lia. }
  assert (P' : 0 < 2 ^ (b - 1)) by (apply Z.pow_pos_nonneg; lia). rewrite P in E, E'.
  destruct (Z.lt_trichotomy k k') as [K|[K|K]]; [nia|subst; lia|nia].
Qed.
Lemma wraps_self b z : in_bits b z -> wraps b z z.
Proof. intros R. split; [exact R|]. exists 0. lia. Qed.
Lemma bits_64 b z : 0 < b <= 64 -> in_bits b z -> int64 z.
Proof.
  unfold in_bits, int64. intros B R. assert (2 ^ (b - 1) <= 2 ^ 63) by (apply Z.pow_le_mono_r; lia). lia.
Qed.
Lemma got_fun l k v v' : got l k v -> got l k v' -> v = v'.
Proof.
  intros [(a & b & -> & N)|[N ->]] [(a' & b' & E & N')|[N' ->]]; try reflexivity.
  - revert a' E N'. induction a as [|x a IH]; intros [|x' a'] E N'; cbn in *.
    + congruence.
    + destruct N'. left. injection E as <- _. reflexivity.
    + destruct N. left. injection E as -> _. reflexivity.
    + injection E as <- E. apply (IH (fun X => N (or_intror X)) a' E (fun X => N' (or_intror X))).
  - destruct N'. rewrite map_app, in_app_iff. cbn. tauto.
  - subst l. destruct N. rewrite map_app, in_app_iff. cbn. tauto.
Qed.

Section RECEIVE.
Context (sprint : value -> string) (instant : string -> timestamp -> Prop) (stamp : timestamp -> string -> Prop) (sch : schema) (m : model)
  (Hm : new_model sch = Ok m) (rt : bool) (instant_fun : forall s t t', instant s t -> instant s t' -> t = t').

Lemma placed_fun rq p t t' : placed rq p t -> placed rq p t' -> t = t'.
Proof. intros A B. destruct A, B; subst; try congruence; try (eapply got_fun; eassumption); contradiction. Qed.
Lemma placed_sourced rq p f s c text : input_shown sprint instant stamp sch rt p (Value_ f s c) -> (sourced rq s text <-> placed rq p text).
Proof.
  intros H. inversion H as [f' k c' Q L LK CV|f' k c' Q H' L LK CV|f' k c' Q H' P L LK CV|]; subst; cbn [sourced]; split.
  - intros (k' & LK' & G). assert (k' = ps_query p) as -> by (eapply literal_fun; eassumption). apply pl_query; assumption.
  - intros [A G|A|A]; [|congruence..]. eauto.
  - intros (k' & LK' & G). assert (k' = ps_header p) as -> by (eapply literal_fun; eassumption). apply pl_header; assumption.
  - intros [A G|A B G|A B]; [congruence| |congruence]. eauto.
  - intros (k' & LK' & G). assert (k' = fd_name (ps_field p)) as -> by (eapply literal_fun; eassumption). apply pl_path; assumption.
  - intros [A G|A B G|A B C G]; [congruence..|]. eauto.
Qed.
Definition no_stamp (f : fielddef) : Prop := (forall t, fd_default f <> VTime t) /\ (forall s, fd_default f <> VStr s).
Lemma base_fun n ts ts' : defines sch n ts -> defines sch n ts' -> ts = ts'.
Proof. intros A B. eapply defines_fun; [exact Hm|exact A|exact B]. Qed.

(** by the base type *)
Lemma converted_text f c ts : converted sprint instant stamp sch rt f c -> defines sch (ts_type (fd_spec f)) ts -> In (ts_type ts) ["String"; "UUID"] ->
  exists w d s, c = AsText w d /\ text_default sprint (fd_default f) s /\ literal d s.
Proof.
  intros C D I. inversion C as [n ts' w s d E D' T W TD L|ts' s d E D' T TD L|n ts' w s d NE E D' T W TD L|n ts' d E D' T TD|n ts' w z d E D' T W ND NU]; subst; try (eauto 8; fail).
  - assert (ts' = ts) as -> by (eapply base_fun; eassumption). rewrite T in I. cbn in I. intuition discriminate.
  - assert (ts' = ts) as -> by (eapply base_fun; eassumption). cbn in T, I. intuition congruence.
Qed.
Lemma converted_time f c ts : converted sprint instant stamp sch rt f c -> defines sch (ts_type (fd_spec f)) ts -> ts_type ts = "Timestamp" ->
  exists d, c = AsTime d /\ time_default instant stamp (fd_default f) d.
Proof.
  intros C D I. inversion C as [n ts' w s d E D' T W TD L|ts' s d E D' T TD L|n ts' w s d NE E D' T W TD L|n ts' d E D' T TD|n ts' w z d E D' T W ND NU]; subst; try (eauto; fail);
    try rewrite E in D; (assert (ts' = ts) as -> by (eapply base_fun; eassumption)); try congruence. rewrite I in T. cbn in T. intuition discriminate.
Qed.
Lemma converted_int f c ts b : converted sprint instant stamp sch rt f c -> defines sch (ts_type (fd_spec f)) ts -> In (ts_type ts, b) widths ->
  exists w d z, c = AsInt (Some w) d /\ number_default (fd_default f) z /\ numeral d z.
Proof.
  intros C D I. apply widths_cases in I.
  inversion C as [n ts' w s d E D' T W TD L|ts' s d E D' T TD L|n ts' w s d NE E D' T W TD L|n ts' d E D' T TD|n ts' w z d E D' T W ND NU]; subst; try (eauto 8; fail);
    try rewrite E in D; (assert (ts' = ts) as -> by (eapply base_fun; eassumption)); intuition congruence.
Qed.
Lemma value_input p i : input_shown sprint instant stamp sch rt p i -> ~ in_body p -> exists f s c, i = Value_ f s c /\ converted sprint instant stamp sch rt (ps_field p) c.
Proof. intros H N. inversion H; subst; eauto. destruct N. split; auto. Qed.
Lemma placed_value rq p t : placed rq p t -> ~ in_body p.
Proof. intros [A|A B|A B C] (X & Y & Z); congruence. Qed.

Lemma values_received rq p i text v : input_shown sprint instant stamp sch rt p i -> placed rq p text -> ((exists t, v = RTime t) -> no_stamp (ps_field p)) ->
  stands instant sch (ts_type (fd_spec (ps_field p))) text v -> forall v', receives instant sch rq p i v' <-> v' = v.
Proof.
  intros H P NS S v'. destruct (value_input p i H (placed_value _ _ _ P)) as (f & s & c & -> & C). unfold receives.
  assert (X : (exists text0, sourced rq s text0 /\ gives instant sch (ps_field p) text0 c v') <-> gives instant sch (ps_field p) text c v').
  { split; [|intros G; exists text; split; [apply (placed_sourced rq p f s c text H); exact P|exact G]].
    intros (t0 & A & G). apply (placed_sourced rq p f s c t0 H) in A. rewrite (placed_fun _ _ _ _ P A). exact G. }
  rewrite X. clear X. destruct S as [ts NE D I|ts t NE D I T|ts b z D I T R].
  - destruct (converted_text _ _ _ C D I) as (w & d & s0 & -> & _ & _). split; [|intros ->; now constructor]. intros G. inversion G; subst; congruence.
  - destruct (converted_time _ _ _ C D I) as (d & -> & TD). destruct NS as [NS1 NS2]; [eauto|].
    assert (d = None) as -> by (inversion TD; subst; try reflexivity; exfalso; [eapply NS1|eapply NS2]; eauto).
    split; [|intros ->; now constructor]. intros G. inversion G as [| |t' A B|[A|A]| |]; subst; [|congruence|destruct (A t T)]. do 2 f_equal. eapply instant_fun; eassumption.
  - destruct (converted_int _ _ _ b C D I) as (w & d & z0 & -> & _ & _). assert (B := widths_range _ _ I). split.
    + intros G. inversion G as [| | | |w' d' i ts' b' v0 A1 A2 A3 A4 A5|w' d' i ts' b' v0 A1 A2 A3 A4 A5]; subst.
      * assert (ts' = ts) as -> by (eapply base_fun; eassumption). assert (b' = b) as -> by (eapply widths_fun; eassumption).
        assert (i = z) as -> by (eapply int_text_fun; eassumption). f_equal. eapply (wraps_fun b z); [lia|exact A5|apply wraps_self; exact R].
      * exfalso. apply (A1 z T). eapply bits_64; eassumption.
    + intros ->. eapply gv_int; [exact T|eapply bits_64; eassumption|exact D|exact I|apply wraps_self; exact R].
Qed.
Lemma default_number v z b : 0 < b <= 64 -> in_bits b z ->
  ((exists m e, v = VDec (DFin m e) /\ ((0 <= e /\ z = m * 2 ^ e) \/ (e < 0 /\ m = z * 2 ^ (- e)))) \/ (v = VNil /\ z = 0)) ->
  forall z', number_default v z' -> z' = z.
Proof.
  intros B R V z' N. apply (bits_64 b z B) in R. unfold int64 in R. destruct V as [(m0 & e & -> & V)|[-> ->]]; inversion N as [d z0 W|v' NV]; subst; try reflexivity.
  - destruct W as [(m1 & e1 & w & E & X & Y)|[[E _]|[E _]]]; try discriminate. injection E as <- <-.
    assert (w = z).
    { destruct V as [[V1 V2]|[V1 V2]], X as [[X1 X2]|[X1 (r & X2 & X3 & X4)]]; try lia. subst m0. assert (P : 0 < 2 ^ (- e)) by (apply Z.pow_pos_nonneg; lia).
      assert (A : (z - w) * 2 ^ (- e) = r) by lia. nia. }
    subst w. destruct Y as [[_ Y]|[[Y _]|[Y _]]]; [exact Y|lia..].
  - destruct (NV (DFin m0 e) eq_refl).
Qed.
Lemma defaults_received rq p i v : input_shown sprint instant stamp sch rt p i -> placed rq p "" -> (forall s, fd_default (ps_field p) <> VPStr s) ->
  declared_default sch (ps_field p) v -> forall v', receives instant sch rq p i v' <-> v' = v.
Proof.
  clear instant_fun. intros H P NP S v'. destruct (value_input p i H (placed_value _ _ _ P)) as (f & s & c & -> & C). unfold receives.
  assert (X : (exists text0, sourced rq s text0 /\ gives instant sch (ps_field p) text0 c v') <-> gives instant sch (ps_field p) "" c v').
  { split; [|intros G; exists ""; split; [apply (placed_sourced rq p f s c "" H); exact P|exact G]].
    intros (t0 & A & G). apply (placed_sourced rq p f s c t0 H) in A. rewrite (placed_fun _ _ _ _ P A). exact G. }
  rewrite X. clear X. destruct S as [ts s0 D I V|ts D I V|ts b z D I R V].
  - destruct (converted_text _ _ _ C D I) as (w & d & s1 & -> & TD & L).
    assert (s1 = s0) as ->.
    { destruct V as [V|[V|[V ->]]]; rewrite V in TD; [| |]; inversion TD; subst; try reflexivity; try congruence; exfalso; eauto. }
    split; [|intros ->; apply gv_no_text; [reflexivity|exact L]]. intros G. inversion G; subst; [congruence|]. f_equal. eapply literal_fun; eassumption.
  - destruct (converted_time _ _ _ C D I) as (d & -> & TD). rewrite V in TD. assert (d = None) as -> by (inversion TD; subst; reflexivity).
    split; [|intros ->; apply gv_no_time; auto]. intros G. inversion G; subst; [congruence|reflexivity].
  - destruct (converted_int _ _ _ b C D I) as (w & d & z0 & -> & ND & NU). assert (B := widths_range _ _ I).
    assert (z0 = z) as -> by (eapply default_number; eassumption). split.
    + intros G. inversion G as [| | | |w' d' i ts' b' v0 A1 A2 A3 A4 A5|w' d' i ts' b' v0 A1 A2 A3 A4 A5]; subst; [destruct (int_text_empty _ A1)|].
      assert (ts' = ts) as -> by (eapply base_fun; eassumption). assert (b' = b) as -> by (eapply widths_fun; eassumption).
      assert (i = z) as -> by (eapply numeral_fun; eassumption). f_equal. eapply (wraps_fun b z); [lia|exact A5|apply wraps_self; exact R].
    + intros ->. eapply gv_no_int; [intros j J; destruct (int_text_empty _ J)|exact NU|exact D|exact I|apply wraps_self; exact R].
Qed.
End RECEIVE.
