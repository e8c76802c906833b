(** Types written as GraphQL and read back accept the same data. *)
From Coq Require Import Permutation.
From Verif Require Import GoStr Outcome Value Schema Scalars Misc MiscFacts Model SpecModel ModelFacts ValidateFacts SpecPV SpecMisc SpecGen SpecOpenApi SpecImport ImportFacts ImportData
  Graphql GraphqlImport SpecGraphql GraphqlRead GraphqlRound.

Section Data.
Context (conf : scalar_conf) (sch sch' : schema) (m m' : model) (K : string -> Prop) (l l' : list typedef).
Hypothesis Hm : new_model sch = Ok m.
Hypothesis Hm' : new_model sch' = Ok m'.
Hypothesis DF : gql_defined (sc_types sch) l.
Hypothesis TY : sc_types sch' = id_type :: l'.
Hypothesis TB : Forall2 (gql_back conf sch) l l'.
Hypothesis HK : gql_data_types conf sch K.
Lemma user_type td : In td (sc_types sch) -> ~ In (td_name td) builtin_names.
Proof. destruct (proj2 (proj2 (new_model_iff sch)) m Hm) as (_ & B & _). apply B. Qed.
Lemma one_type td td' : In td (sc_types sch) -> In td' (sc_types sch) -> td_name td = td_name td' -> td = td'.
Proof.
  destruct (proj2 (proj2 (new_model_iff sch)) m Hm) as (ND & _). intros I I' E. clear DF HK. induction (sc_types sch) as [|x r IH]; [destruct I|]. inversion ND as [|y z A B]; subst.
  destruct I as [<-|I].
  - destruct I' as [<-|I']; [reflexivity|]. exfalso. apply A. rewrite E. apply in_map. exact I'.
  - destruct I' as [<-|I']; [|exact (IH B I I')]. exfalso. apply A. rewrite <- E. apply in_map. exact I.
Qed.
Lemma K_user n : K n -> ~ In n builtin_names.
Proof. intros H. destruct (HK n H) as (_ & td & I & <- & _). apply user_type. exact I. Qed.
Lemma scalar_builtin n s : gql_scalar_back conf n s -> In n gql_scalars.
Proof. intros [| |k H|k H|k H _|k H _|k t H _ _]; simpl in *; tauto. Qed.
Lemma scalars_base n : In n gql_scalars -> In n builtin_names.
Proof. simpl. tauto. Qed.
Ltac each I := simpl in I; repeat match type of I with _ \/ _ => destruct I as [<-|I] | False => destruct I end.
Lemma scalar_leaf ts s : gql_plain conf K ts -> gql_scalar_back conf (ts_type ts) s -> leaf K ts (bare s [] [] "" []).
Proof.
  intros P B. destruct P as [T|T P V S|I C A A'|I C|T _ _].
  - rewrite T in B. inversion B; subst; try (exfalso; simpl in *; intuition discriminate). apply lf_plain; [symmetry; exact T|rewrite T; simpl; tauto].
  - rewrite T in B. inversion B; subst; try (exfalso; simpl in *; intuition discriminate). apply lf_str; [exact T|reflexivity|exact P|exact V|]. intros n. unfold sizes_ok. destruct S as [-> ->]. reflexivity.
  - assert (NK : In s number_kinds).
    { inversion B as [E1 E2|E1 E2|k H E1 E2|k H E1 E2|k H Z E1 E2|k H Z E1 E2|k t H Z Q E1 E2]; subst; try (simpl; tauto).
      - rewrite <- E1 in I. simpl in I. intuition discriminate.
      - rewrite <- E1 in I. simpl in I. intuition discriminate.
      - exfalso. simpl in H, I. intuition congruence.
      - exfalso. simpl in H. destruct H as [H|[H|H]]; [rewrite <- H in I; simpl in I; intuition discriminate|rewrite <- H in I; simpl in I; intuition discriminate|]. apply Z, C. simpl. tauto. }
    apply lf_num; [exact I|exact NK|exact A|exact A'].
  - assert (E : s = ts_type ts).
    { inversion B as [E1 E2|E1 E2|k H E1 E2|k H E1 E2|k H Z E1 E2|k H Z E1 E2|k t H Z Q E1 E2]; subst.
      - rewrite <- E1 in I. simpl in I. intuition discriminate.
      - rewrite <- E1 in I. simpl in I. intuition discriminate.
      - exfalso. simpl in H, I. intuition congruence.
      - exfalso. simpl in H, I. intuition congruence.
      - exfalso. rewrite C in Z. rewrite Z in I. simpl in I. intuition discriminate.
      - exfalso. simpl in H, I. intuition congruence.
      - rewrite C in Q. apply conv_fun in Q. rewrite Q. simpl in I. destruct I as [I|[I|[]]]; rewrite <- I; reflexivity. }
    subst s. apply lf_plain; [reflexivity|]. simpl in I |- *. tauto.
  - rewrite T in B. apply scalar_builtin in B. exfalso. simpl in B. intuition discriminate.
Qed.
Lemma list_leaf ts i : gql_plain conf K ts -> ts_type ts = "Array" -> gql_converts (ts_items ts) i -> leaf K ts (bare "Array" [] [] i []).
Proof.
  intros P T C. destruct P as [T'|T' _ _ _|I _ _ _|I _|_ S I].
  - congruence.
  - congruence.
  - rewrite T in I. exfalso. simpl in I. intuition discriminate.
  - rewrite T in I. exfalso. simpl in I. intuition discriminate.
  - apply lf_arr; [exact T|reflexivity|exact S|split; reflexivity|]. apply conv_fun in C. cbn [bare ts_items]. subst i. destruct I as [I|I].
    + apply in_app_iff in I. destruct I as [I|I]; [left; split; [|left; exact I]|right; split; [exact I|]]; each I; first [reflexivity|simpl; tauto].
    + left. split; [|right; exact I]. destruct (HK _ I) as (N & _). symmetry. apply eq_sym. unfold convert_type_name. 
      destruct (ts_items ts =?s "Int") eqn:E1; [apply seqb_eq in E1; exfalso; apply N; rewrite E1; simpl; tauto|]. destruct (ts_items ts =?s "Float") eqn:E2; [apply seqb_eq in E2; exfalso; apply N; rewrite E2; simpl; tauto|].
      destruct (ts_items ts =?s "Boolean") eqn:E3; [apply seqb_eq in E3; exfalso; apply N; rewrite E3; simpl; tauto|reflexivity].
Qed.
Definition via (n : string) (a : typespec) : Prop := exists td, In td (sc_types sch) /\ td_name td = n /\ td_spec td = a.
Definition never (n : string) (a : typespec) : Prop := False.
Lemma plain_base ts : gql_plain conf K ts -> In (ts_type ts) ("Array" :: gql_scalars).
Proof. intros [T|T _ _ _|I _ _ _|I _|T _ _]; try (rewrite T; simpl; tauto); simpl in *; tauto. Qed.
Lemma base_builtin n : In n ("Array" :: gql_scalars) -> In n builtin_names.
Proof. simpl. tauto. Qed.
Lemma field_leaf ts ts' : gql_data_field conf sch K ts -> gql_field_back conf sch ts ts' -> xleaf K via never ts ts'.
Proof.
  intros D B. assert (NB : forall td, In td (sc_types sch) -> td_name td = ts_type ts -> ~ In (ts_type ts) builtin_names). { intros td I E. rewrite <- E. apply user_type. exact I. }
  assert (KT : K (ts_type ts) -> forall td, In td (sc_types sch) -> td_name td = ts_type ts -> ~ In (ts_type (td_spec td)) ("Array" :: gql_scalars)).
  { intros Kn td I E J. destruct (HK _ Kn) as (_ & td' & I' & E' & G). rewrite (one_type td td' I I') in J by congruence. destruct G as [G|G _]; [simpl in G, J; intuition congruence|rewrite G in J; simpl in J; intuition discriminate]. }
  destruct B as [s S|i T C|td i I E T C|td s I E S|s NS NT C].
  - apply scalar_builtin in S as SB. apply scalars_base in SB. destruct D as [P|O|td I E P|Kn].
    + left. apply scalar_leaf; assumption.
    + exfalso. apply scalar_builtin in S. simpl in O, S. intuition congruence.
    + exfalso. exact (NB td I E SB).
    + exfalso. exact (K_user _ Kn SB).
  - assert (TB' : In (ts_type ts) builtin_names) by (rewrite T; simpl; tauto). destruct D as [P|O|td I E P|Kn].
    + left. apply list_leaf; assumption.
    + exfalso. rewrite T in O. simpl in O. intuition discriminate.
    + exfalso. exact (NB td I E TB').
    + exfalso. exact (K_user _ Kn TB').
  - destruct D as [P|O|td' I' E' P|Kn].
    + exfalso. exact (NB td I E (base_builtin _ (plain_base _ P))).
    + exfalso. apply (NB td I E). simpl in O |- *. tauto.
    + assert (td' = td) by (apply one_type; auto; congruence). subst td'. right; left. exists (td_spec td). split; [exists td; auto|]. apply list_leaf; assumption.
    + exfalso. apply (KT Kn td I E). rewrite T. simpl. tauto.
  - destruct D as [P|O|td' I' E' P|Kn].
    + exfalso. exact (NB td I E (base_builtin _ (plain_base _ P))).
    + exfalso. apply (NB td I E). simpl in O |- *. tauto.
    + assert (td' = td) by (apply one_type; auto; congruence). subst td'. right; left. exists (td_spec td). split; [exists td; auto|]. apply scalar_leaf; assumption.
    + exfalso. apply (KT Kn td I E). right. exact (scalar_builtin _ _ S).
  - destruct D as [P|O|td' I' E' P|Kn].
    + exfalso. apply NS. exact (plain_base _ P).
    + left. apply conv_fun in C. subst s. apply lf_plain; [simpl in O; destruct O as [O|[O|[]]]; rewrite <- O; reflexivity|simpl in O |- *; tauto].
    + exfalso. apply (NT td' I' E'). exact (plain_base _ P).
    + left. assert (Q : s = ts_type ts); [|subst s; apply lf_ref; [reflexivity|exact Kn]]. assert (X := proj1 (HK _ Kn)). clear - C X. inversion C as [E|E|E|n N E]; [| | |reflexivity]; exfalso; apply X; rewrite <- E; simpl; tauto.
Qed.
Lemma spec_data td td' : gql_data conf sch K (td_spec td) -> gql_back conf sch td td' -> td_name td' = td_name td /\ xeqv K via never (td_spec td) (td_spec td').
Proof.
  intros D B. destruct B as [T|T|fs T F]; (split; [reflexivity|]); cbn [td_spec].
  - left. left. apply lf_enum; [exact T|reflexivity|]. cbn [bare ts_elements]. rewrite map_map. reflexivity.
  - left. left. apply lf_plain; [symmetry; exact T|rewrite T; simpl; tauto].
  - destruct D as [J|_ DF']; [rewrite T in J; exfalso; simpl in J; intuition discriminate|]. right. split; [exact T|]. split; [reflexivity|]. cbn [bare ts_fields]. exists (ts_fields (td_spec td)). split; [apply Permutation_refl|].
    revert DF'. clear T. induction F as [|f g a b (ts & B & ->) F IH]; intros DF'; constructor; [|apply IH; intros x I; apply DF'; right; exact I].
    split; [reflexivity|]. split; [reflexivity|]. cbn [fd_spec]. apply field_leaf; [apply DF'; left; reflexivity|exact B].
Qed.
Lemma defined_in td : In td (sc_types sch) -> In (ts_type (td_spec td)) gql_kinds -> In td l.
Proof.
  intros I J. clear - DF I J. induction DF as [|x r k H D IH|x r k H D IH]; [exact I| |].
  - destruct I as [<-|I]; [left; reflexivity|right; exact (IH D I)].
  - destruct I as [<-|I]; [contradiction|exact (IH D I)].
Qed.
Lemma gql_verdict X ctx ctx' n v : K n -> vwf v ->
  ((exists k, validate X m k ctx n v = Ok tt) <-> (exists k, validate X m' k ctx' n v = Ok tt)).
Proof.
  intros Kn W.
  assert (CORR : forall n, K n -> ~ In n builtin_names /\ exists a b, defines sch n a /\ defines sch' n b /\ xeqv K via never a b).
  { intros k Kk. split; [apply K_user; exact Kk|]. destruct (HK k Kk) as (_ & td & I & E & D).
    assert (J : In td l). { apply defined_in; [exact I|]. destruct D as [D|D _]; [simpl in D |- *; tauto|rewrite D; simpl; tauto]. }
    assert (X1 : exists td', In td' l' /\ gql_back conf sch td td').
    { clear - TB J. induction TB as [|x y r r' H F IH]; [destruct J|]. destruct J as [<-|J]; [exists y; simpl; auto|]. destruct (IH F J) as (t & J' & Q). exists t. simpl. auto. }
    destruct X1 as (td' & I' & B). destruct (spec_data td td' D B) as [N EQ]. exists (td_spec td), (td_spec td'). split; [exists td; split; [right; auto|reflexivity]|].
    split; [|exact EQ]. exists td'. split; [right; split; [rewrite TY; right; exact I'|congruence]|reflexivity]. }
  assert (BI : forall s0 m0, new_model s0 = Ok m0 -> forall n a, In n builtin_names -> defines s0 n a -> a = ts_of n).
  { intros s0 m0 M0 k a IB D. apply (defines_fun s0 m0 M0 k a (ts_of k) D). exists (mkTD k "" [] (ts_of k)). split; [left; auto|reflexivity]. }
  assert (REF : xeqv K via never (ts_of n) (ts_of n)) by (left; left; apply lf_ref; [reflexivity|exact Kn]).
  assert (KB : forall k, In k kinds -> In k builtin_names) by (intros k I; unfold kinds, builtin_names in *; simpl in *; tauto).
  assert (NK : ~ In n kinds) by (intros I; exact (K_user n Kn (KB n I))).
  assert (HV : forall k a, via k a -> ~ In k kinds /\ defines sch k a).
  { intros k a (td & I & E & Q). split; [intros J; apply (user_type td I); rewrite E; exact (KB k J)|]. exists td. split; [right; auto|exact Q]. }
  assert (VI : forall s0 m0, new_model s0 = Ok m0 -> forall c, (exists k, validate X m0 k c n v = Ok tt) <-> accepts X s0 (ts_of n) v).
  { intros s0 m0 M0 c. rewrite (validate_iff X s0 m0 M0 n v c W). split.
    - intros (ts & D & A). eapply ac_ref; [split; [exact NK|exact D]|exact A].
    - intros A. inversion A; subst; cbn [ts_of ts_type] in *; try (exfalso; apply NK; first [match goal with H : n = _ |- _ => rewrite H; simpl; tauto end|simpl in *; tauto]).
      match goal with H : refers _ _ ?t |- _ => destruct H as [_ D]; exists t; auto end. }
  rewrite (VI _ _ Hm ctx), (VI _ _ Hm' ctx'). split; intros A.
  - refine (xfwd X K sch sch' via never (defines_fun sch m Hm) CORR (BI _ _ Hm) HV _ _ _ A _ REF). intros ? ? [].
  - refine (xfwd X K sch' sch never via (defines_fun sch' m' Hm') _ (BI _ _ Hm') _ HV _ _ A _ (xeqv_sym _ _ _ _ _ REF)); [|intros ? ? []].
    intros k Kk. destruct (CORR k Kk) as (NB & a & b & D1 & D2 & EQ). split; [exact NB|]. exists b, a. split; [exact D2|]. split; [exact D1|apply xeqv_sym; exact EQ].
Qed.
End Data.
