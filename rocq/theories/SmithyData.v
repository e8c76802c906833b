(** Types written to a Smithy document and read back accept the same data. *)
From Coq Require Import Permutation.
From Verif Require Import GoStr Outcome Value Schema Scalars Misc MiscFacts Model SpecModel ModelFacts ValidateFacts SpecPV SpecMisc SpecGen OpenApi
  OpenApiImport SpecOpenApi SpecImport ImportFacts ImportData SmithyAst SpecSmithy.

Section Data.
Context (L : slib) (sch sch' : schema) (m m' : model) (K : string -> Prop).
Hypothesis Hm : new_model sch = Ok m.
Hypothesis Hm' : new_model sch' = Ok m'.
Hypothesis TB : Forall2 (type_back L sch) (sc_types sch) (sc_types sch').
Hypothesis HK : smithy_data_types L K sch.
Lemma K_user n : K n -> ~ In n builtin_names.
Proof. intros H. destruct (HK n H) as (td & I & <- & _). destruct (proj2 (proj2 (new_model_iff sch)) m Hm) as (_ & B & _). apply B. exact I. Qed.
Lemma K_name n : K n -> name_back n = n.
Proof.
  intros H. apply K_user in H. unfold name_back. destruct (n =?s "UUID") eqn:E; [apply seqb_eq in E; subst n; exfalso; apply H; simpl; tauto|].
  destruct (n =?s "Array") eqn:E2; [apply seqb_eq in E2; subst n; exfalso; apply H; simpl; tauto|]. reflexivity.
Qed.
Lemma number_name t : In t number_kinds -> name_back t = t.
Proof. intros I. simpl in I. repeat (destruct I as [<-|I]; [reflexivity|]). destruct I. Qed.
Lemma item_back n : smithy_item K n -> item_same K n (name_back n).
Proof.
  intros [I|I]; [|rewrite (K_name n I); left; auto]. apply in_app_iff in I. destruct I as [I|I]; [|rewrite (number_name n I); right; auto].
  assert (E : name_back n = n) by (simpl in I; repeat (destruct I as [<-|I]; [reflexivity|]); destruct I). rewrite E. left. auto.
Qed.
Lemma field_leaf ts : smithy_field K ts -> leaf K ts (plain_spec (name_back (ts_type ts)) "").
Proof.
  intros [I|I A B|T P V [S1 S2]|I].
  - assert (E : name_back (ts_type ts) = ts_type ts) by (simpl in I; repeat (destruct I as [<-|I]; [reflexivity|]); destruct I). rewrite E. apply lf_plain; [reflexivity|]. simpl in I |- *. tauto.
  - rewrite (number_name _ I). apply lf_num; [exact I|exact I|exact A|exact B].
  - rewrite T. apply lf_str; [exact T|reflexivity|exact P|exact V|]. intros n. unfold sizes_ok. rewrite S1, S2. reflexivity.
  - rewrite (K_name _ I). apply lf_ref; [reflexivity|exact I].
Qed.
Lemma size_kept ts mn mx n : sizes_kept L ts -> size_back L (ts_minsize ts) mn -> size_back L (ts_maxsize ts) mx ->
  (at_least n (ts_minsize ts) /\ at_most n (ts_maxsize ts) <-> at_least n mn /\ at_most n mx).
Proof.
  intros [A B] S1 S2. unfold size_back in *. destruct (ts_minsize ts) as [z|].
  - specialize (A z eq_refl). rewrite A in S1. destruct (ts_maxsize ts) as [y|].
    + destruct (B y eq_refl) as [B1 B2]. rewrite B1 in S2. destruct S2 as [[Y _]|[_ ->]]; [contradiction|]. destruct S1 as [[-> ->]|[_ ->]]; [|reflexivity]. simpl. split; [tauto|intros [_ H]; split; [lia|exact H]].
    + subst mx. destruct S1 as [[-> ->]|[_ ->]]; [|reflexivity]. simpl. split; [tauto|]. split; [lia|exact Logic.I].
  - subst mn. destruct (ts_maxsize ts) as [y|]; [|subst mx; reflexivity]. destruct (B y eq_refl) as [B1 B2]. rewrite B1 in S2. destruct S2 as [[Y _]|[_ ->]]; [contradiction|reflexivity].
Qed.
Lemma spec_data ts ts' : smithy_data L K ts -> spec_back L ts ts' -> eqv K ts ts'.
Proof.
  intros D B. destruct B as [ts I|ts mn mx T NU S1 S2|ts T U|ts T|ts els T F|ts fs T F|ts T|ts T|ts vs T F].
  - destruct D as [_ A B|T _ _ _|J|T _|J _ _]; [|clash|clash|clash|clash]. left. apply lf_num; simpl; auto.
  - destruct D as [J _ _|_ _ NV SK|J|T' _|J _ _]; [clash| |clash|clash|clash]. left. apply lf_str; [exact T|reflexivity|reflexivity| |].
    + unfold values_back. cbn [ts_values]. destruct (ts_values ts) as [[|v l]|]; [contradiction|reflexivity|reflexivity].
    + intros n. unfold sizes_ok. cbn [ts_minsize ts_maxsize]. exact (size_kept ts mn mx n SK S1 S2).
  - destruct D as [J _ _|_ NU _ _|J|T' _|J _ _]; [clash|contradiction|clash|clash|clash].
  - left. apply lf_plain; [symmetry; exact T|rewrite T; simpl; tauto].
  - left. apply lf_enum; [exact T|reflexivity|]. cbn [ts_elements]. clear - F. induction F as [|e e' l l' (E & _) F IH]; simpl; [reflexivity|rewrite IH, E; reflexivity].
  - destruct D as [J _ _|T' _ _ _|J|_ DF|J _ _]; [clash|clash|clash| |clash]. right. split; [exact T|]. split; [reflexivity|]. cbn [ts_fields]. exists (ts_fields ts). split; [apply Permutation_refl|].
    revert DF. clear - F Hm HK. induction F as [|f g l l' H F IH]; intros DF; constructor; [|apply IH; intros x I; apply DF; right; exact I].
    rewrite H. split; [reflexivity|]. split; [reflexivity|]. cbn [fd_spec]. apply field_leaf. apply DF. left. reflexivity.
  - destruct D as [J _ _|T' _ _ _|J|T' _|_ NS SI]; [clash|clash|clash|clash|]. left. apply lf_arr; [exact T|reflexivity|exact NS|split; reflexivity|]. apply item_back. exact SI.
  - destruct D as [J _ _|T' _ _ _|J|T' _|_ NS SI]; [clash|clash|clash|clash|]. left. apply lf_map; [exact T|reflexivity|exact NS|split; reflexivity|]. apply item_back. exact SI.
  - left. apply lf_plain; [symmetry; exact T|rewrite T; simpl; tauto].
Qed.
Lemma smithy_verdict X ctx ctx' n v : K n -> vwf v ->
  ((exists k, validate X m k ctx n v = Ok tt) <-> (exists k, validate X m' k ctx' n v = Ok tt)).
Proof.
  intros Kn W.
  assert (CORR : forall n, K n -> ~ In n builtin_names /\ exists a b, defines sch n a /\ defines sch' n b /\ eqv K a b).
  { intros k Kk. split; [apply K_user; exact Kk|]. destruct (HK k Kk) as (td & I & E & D).
    assert (X1 : exists td', In td' (sc_types sch') /\ type_back L sch td td').
    { clear - TB I. induction TB as [|x y l l' H F IH]; [destruct I|]. destruct I as [<-|I]; [exists y; simpl; auto|]. destruct (IH F I) as (t & J & Q). exists t. simpl. auto. }
    destruct X1 as (td' & I' & N & _ & SB & _). exists (td_spec td), (td_spec td'). split; [exists td; split; [right; auto|reflexivity]|].
    split; [exists td'; split; [right; split; [exact I'|congruence]|reflexivity]|]. apply spec_data; assumption. }
  assert (BI : forall s0 m0, new_model s0 = Ok m0 -> forall n a, In n builtin_names -> defines s0 n a -> a = ts_of n).
  { intros s0 m0 M0 k a IB D. apply (defines_fun s0 m0 M0 k a (ts_of k) D). exists (mkTD k "" [] (ts_of k)). split; [left; auto|reflexivity]. }
  assert (REF : eqv K (ts_of n) (ts_of n)) by (left; apply lf_ref; [reflexivity|exact Kn]).
  assert (NK : ~ In n kinds). { intros I. apply (K_user n Kn). unfold kinds, builtin_names in *. simpl in *. tauto. }
  assert (VI : forall s0 m0, new_model s0 = Ok m0 -> forall c, (exists k, validate X m0 k c n v = Ok tt) <-> accepts X s0 (ts_of n) v).
  { intros s0 m0 M0 c. rewrite (validate_iff X s0 m0 M0 n v c W). split.
    - intros (ts & D & A). eapply ac_ref; [split; [exact NK|exact D]|exact A].
    - intros A. inversion A; subst; cbn [ts_of ts_type] in *; try (exfalso; apply NK; first [match goal with H : n = _ |- _ => rewrite H; simpl; tauto end|simpl in *; tauto]).
      match goal with H : refers _ _ ?t |- _ => destruct H as [_ D]; exists t; auto end. }
  rewrite (VI _ _ Hm ctx), (VI _ _ Hm' ctx'). split; intros A.
  - refine (fwd X K sch sch' (defines_fun sch m Hm) CORR (BI _ _ Hm) _ _ A _ REF).
  - refine (fwd X K sch' sch (defines_fun _ m' Hm') _ (BI _ _ Hm') _ _ A _ REF).
    intros k Kk. destruct (CORR k Kk) as (NB & a & b & D1 & D2 & E). split; [exact NB|]. exists b, a. split; [exact D2|]. split; [exact D1|]. apply eqv_sym. exact E.
Qed.
End Data.
