From Verif Require Import GoStr Outcome Value Schema Model SpecModel ModelFacts SpecPV Generator Graphql SpecGen.

Section GQL.
Context (conf : scalar_conf) (sch : schema) (m : model) (Hm : new_model sch = Ok m).

Definition grows (a b : list string) : Prop := incl a b.
Lemma custom_facts used n d s used' : custom_scalar conf used n d = (s, used') ->
  grows used used' /\ (s = d \/ In s used') /\ (d <> "" -> s <> "").
Proof.
  unfold custom_scalar. destruct (conf n =?s "") eqn:E; cbn [negb].
  - intros H. injection H as <- <-. split; [apply incl_refl|]. split; [left; reflexivity|auto].
  - intros H. injection H as <- <-. assert (N : conf n <> "") by (intros X; rewrite X in E; discriminate).
    destruct (str_mem (conf n) used) eqn:F.
    + split; [apply incl_refl|]. split; [right; apply str_mem_In; exact F|auto].
    + split; [apply incl_appl, incl_refl|]. split; [right; apply in_or_app; right; left; reflexivity|auto].
Qed.
Lemma scalar_facts used n s used' : scalar_type conf used n = (s, used') ->
  grows used used' /\ ((In n gql_scalars /\ s <> "" /\ (In s gql_builtin \/ In s used')) \/ (~ In n gql_scalars /\ s = "")).
Proof.
  unfold scalar_type. intros H.
  destruct (n =?s "Bool") eqn:E1; [apply seqb_eq in E1; injection H as <- <-; subst; split; [apply incl_refl|left; simpl; intuition discriminate]|].
  destruct (n =?s "String") eqn:E2; [apply seqb_eq in E2; injection H as <- <-; subst; split; [apply incl_refl|left; simpl; intuition discriminate]|].
  destruct (str_mem n ["UUID"; "Timestamp"]) eqn:E3.
  { apply str_mem_In in E3. apply custom_facts in H. destruct H as (G & S & N). split; [exact G|left]. split; [simpl in *; tauto|].
    split; [apply N; discriminate|]. destruct S as [->|S]; [left; simpl; tauto|right; exact S]. }
  destruct (str_mem n ["Int32"; "Int16"; "Int8"]) eqn:E4.
  { apply str_mem_In in E4. injection H as <- <-. split; [apply incl_refl|left]. simpl in *. intuition discriminate. }
  destruct (str_mem n ["Float64"; "Float32"]) eqn:E5.
  { apply str_mem_In in E5. injection H as <- <-. split; [apply incl_refl|left]. simpl in *. intuition discriminate. }
  destruct (str_mem n ["Int64"; "Decimal"]) eqn:E6.
  { apply str_mem_In in E6. apply custom_facts in H. destruct H as (G & S & N). split; [exact G|left]. split; [simpl in *; tauto|].
    split; [apply N; discriminate|]. destruct S as [->|S]; [left; simpl; tauto|right; exact S]. }
  injection H as <- <-. split; [apply incl_refl|right]. split; [|reflexivity]. intros X.
  apply str_mem_In in X. unfold gql_scalars in X. unfold str_mem in *. simpl in *.
  repeat match goal with H : (_ || _)%bool = false |- _ => apply orb_false_iff in H; destruct H end.
  repeat match goal with H : (n =?s _) = false |- _ => rewrite H in X; clear H end. discriminate.
Qed.
(** what a written type can name *)
Definition target_name (r : gref) : string := match r with RName n | RList n => n end.
Definition known (used : list string) (n : string) : Prop := In n gql_builtin \/ In n used \/ of_kind sch gql_kinds n.
Notation field_known := (gql_field_known sch).
Notation arrays_known := (gql_arrays_known sch).

Lemma find_array_Some n td : find_array m n = Some td -> In td (sc_types sch) /\ td_name td = n /\ ts_type (td_spec td) = "Array".
Proof.
  unfold find_array. rewrite (proj1 (new_model_inv _ _ Hm)). intros H. apply find_some in H. destruct H as [I E]. apply in_rev in I.
  apply andb_true_iff in E. destruct E as [A B]. apply seqb_eq in A, B. auto.
Qed.
Lemma find_array_None n td : find_array m n = None -> In td (sc_types sch) -> td_name td = n -> ts_type (td_spec td) <> "Array".
Proof.
  unfold find_array. rewrite (proj1 (new_model_inv _ _ Hm)). intros H I E T.
  apply (find_none _ _ H td) in I || (apply in_rev in I; apply (find_none _ _ H td) in I).
  rewrite E, T, !seqb_refl in I. discriminate.
Qed.
Lemma not_builtin td : In td (sc_types sch) -> ~ In (td_name td) builtin_names.
Proof. destruct (new_model_inv _ _ Hm) as (_ & _ & _ & _ & C & _). apply C. Qed.
Lemma type_ref_known used ts r used' : arrays_known -> field_known ts -> type_ref conf m used ts = (r, used') ->
  grows used used' /\ known used' (target_name r).
Proof.
  intros HA HF. unfold type_ref. destruct (find_array m (ts_type ts)) as [a|] eqn:FA.
  - destruct (find_array_Some _ _ FA) as (Ia & Na & Ta). rewrite Ta.
    assert (S : scalar_type conf used "Array" = ("", used)) by reflexivity. rewrite S. simpl.
    intros H. injection H as <- <-. split; [apply incl_refl|]. right. right. apply HA; assumption.
  - destruct (scalar_type conf used (ts_type ts)) as [s u] eqn:S. destruct (scalar_facts _ _ _ _ S) as [G [(I & N & K)|[I ->]]].
    + destruct (s =?s "") eqn:E; [apply seqb_eq in E; contradiction|]. cbn [negb]. intros H. injection H as <- <-.
      split; [exact G|]. simpl. unfold known. tauto.
    + rewrite seqb_refl. cbn [negb]. destruct (ts_type ts =?s "Array") eqn:TA.
      * intros H. injection H as <- <-. split; [exact G|]. apply seqb_eq in TA. destruct HF as [HF|[[_ HF]|(td & Itd & Ntd & _)]].
        -- contradiction.
        -- right. right. exact HF.
        -- exfalso. apply (not_builtin td Itd). rewrite Ntd, TA. simpl. tauto.
      * destruct HF as [HF|[[HF _]|(td & Itd & Ntd & Ktd)]]; [contradiction|rewrite HF in TA; discriminate|].
        assert (F : find_type m (ts_type ts) = Some td).
        { apply (find_type_spec sch m Hm). right. split; assumption. }
        rewrite F. destruct (scalar_type conf u (ts_type (td_spec td))) as [s2 u2] eqn:S2.
        destruct (scalar_facts _ _ _ _ S2) as [G2 [(I2 & N2 & K2)|[I2 ->]]].
        -- destruct (s2 =?s "") eqn:E; [apply seqb_eq in E; contradiction|]. cbn [negb]. intros H. injection H as <- <-.
           split; [eapply incl_tran; eassumption|]. simpl. unfold known. tauto.
        -- rewrite seqb_refl. cbn [negb]. intros H. injection H as <- <-. split; [eapply incl_tran; eassumption|].
           right. right. exists td. split; [exact Itd|]. split; [exact Ntd|].
           apply in_app_iff in Ktd. destruct Ktd as [K|K]; [exact K|]. apply in_app_iff in K. destruct K as [K|[K|[]]]; [contradiction|].
           exfalso. exact (find_array_None _ _ FA Itd Ntd (eq_sym K)).
Qed.
Lemma fields_known fs : forall used l used', arrays_known -> (forall f, In f fs -> field_known (fd_spec f)) ->
  struct_fields conf m used fs = (l, used') -> grows used used' /\ forall f c r b, In (f, c, r, b) l -> known used' (target_name r).
Proof.
  induction fs as [|f fs IH]; intros used l used' HA HF H; simpl in H.
  - injection H as <- <-. split; [apply incl_refl|]. intros ? ? ? ? [].
  - destruct (type_ref conf m used (fd_spec f)) as [t u] eqn:T. destruct (struct_fields conf m u fs) as [l' u'] eqn:S.
    injection H as <- <-. destruct (type_ref_known _ _ _ _ HA (HF f (or_introl eq_refl)) T) as [G K].
    destruct (IH _ _ _ HA (fun x Hx => HF x (or_intror Hx)) S) as [G' K']. split; [eapply incl_tran; eassumption|].
    intros fn c r b [E|I]; [|eapply K'; exact I]. injection E as <- <- <- <-. destruct K as [K|[K|K]]; [left; exact K|right; left; apply G'; exact K|right; right; exact K].
Qed.
Lemma fields_shape fs : forall used l used', struct_fields conf m used fs = (l, used') ->
  Forall2 (fun f x => exists r, x = (fd_name f, fd_comment f, r, fd_required f)) fs l.
Proof.
  induction fs as [|f fs IH]; intros used l used' H; simpl in H; [injection H as <- <-; constructor|].
  destruct (type_ref conf m used (fd_spec f)) as [t u]. destruct (struct_fields conf m u fs) as [l' u'] eqn:S.
  injection H as <- <-. constructor; [exists t; reflexivity|]. eapply IH. exact S.
Qed.
Definition in_document (td : typedef) : bool := str_mem (ts_type (td_spec td)) gql_kinds.
Lemma defs_shape tds : forall used ds used', gql_defs conf m used tds = Ok (ds, used') ->
  Forall2 gql_stands (filter in_document tds) ds.
Proof.
  induction tds as [|td tds IH]; intros used ds used' H; simpl in H; [injection H as <- <-; constructor|].
  cbn [filter]. unfold in_document at 1. set (t := ts_type (td_spec td)) in *. change (str_mem t gql_kinds) with ((t =?s "Enum") || ((t =?s "Struct") || ((t =?s "Union") || false)))%bool.
  destruct (t =?s "Enum") eqn:E1.
  { apply rbind_Ok in H. destruct H as ([l u] & H & E). injection E as <- <-. cbn [orb]. constructor; [apply gs_enum; apply seqb_eq; exact E1|eapply IH; exact H]. }
  destruct (t =?s "Struct") eqn:E2.
  { destruct (struct_fields conf m used _) as [fs u1] eqn:S. apply rbind_Ok in H. destruct H as ([l u] & H & E). injection E as <- <-. cbn [orb].
    constructor; [apply gs_type; [apply seqb_eq; exact E2|eapply fields_shape; exact S]|eapply IH; exact H]. }
  destruct (t =?s "Union") eqn:E3.
  { apply rbind_Ok in H. destruct H as ([l u] & H & E). injection E as <- <-. cbn [orb]. constructor; [apply gs_union; apply seqb_eq; exact E3|eapply IH; exact H]. }
  cbn [orb]. destruct (_ || _)%bool in H; [eapply IH; exact H|discriminate].
Qed.
Lemma defs_known tds : forall used ds used', arrays_known ->
  (forall td f, In td tds -> ts_type (td_spec td) = "Struct" -> In f (ts_fields (td_spec td)) -> field_known (fd_spec f)) ->
  (forall td v, In td tds -> ts_type (td_spec td) = "Union" -> In v (ts_variants (td_spec td)) -> of_kind sch gql_kinds (ts_type (uv_spec v))) ->
  gql_defs conf m used tds = Ok (ds, used') ->
  grows used used' /\ forall d n, In d ds -> gql_mentions d n -> known used' n.
Proof.
  induction tds as [|td tds IH]; intros used ds used' HA HF HV H; simpl in H.
  - injection H as <- <-. split; [apply incl_refl|]. intros ? ? [].
  - assert (HF' := fun x f Hx => HF x f (or_intror Hx)). assert (HV' := fun x v Hx => HV x v (or_intror Hx)).
    set (t := ts_type (td_spec td)) in *.
    destruct (t =?s "Enum") eqn:E1.
    { apply rbind_Ok in H. destruct H as ([l u] & H & E). injection E as <- <-. destruct (IH _ _ _ HA HF' HV' H) as [G K].
      split; [exact G|]. intros d n [<-|I] M; [inversion M|eapply K; eassumption]. }
    destruct (t =?s "Struct") eqn:E2.
    { apply seqb_eq in E2. destruct (struct_fields conf m used _) as [fs u1] eqn:S. apply rbind_Ok in H. destruct H as ([l u] & H & E). injection E as <- <-.
      destruct (fields_known _ _ _ _ HA (fun f Hf => HF td f (or_introl eq_refl) E2 Hf) S) as [G1 K1].
      destruct (IH _ _ _ HA HF' HV' H) as [G K]. split; [eapply incl_tran; eassumption|].
      intros d n [<-|I] M; [|eapply K; eassumption].
      assert (X : known u1 n) by (inversion M as [? ? ? ? ? ? Hin|? ? ? ? ? ? Hin|]; subst; [exact (K1 _ _ _ _ Hin)|exact (K1 _ _ _ _ Hin)]).
      destruct X as [X|[X|X]]; [left; exact X|right; left; apply G; exact X|right; right; exact X]. }
    destruct (t =?s "Union") eqn:E3.
    { apply seqb_eq in E3. apply rbind_Ok in H. destruct H as ([l u] & H & E). injection E as <- <-.
      destruct (IH _ _ _ HA HF' HV' H) as [G K]. split; [exact G|]. intros d n [<-|I] M; [|eapply K; eassumption].
      inversion M as [| |? ? ? Hin]; subst. apply in_map_iff in Hin. destruct Hin as (v & <- & Hv). right. right. apply (HV td v (or_introl eq_refl) E3 Hv). }
    destruct (_ || _)%bool in H; [eapply IH; eassumption|discriminate].
Qed.
Lemma shape_names tds ds : Forall2 gql_stands (filter in_document tds) ds ->
  forall td, In td tds -> In (ts_type (td_spec td)) gql_kinds -> exists d, In d ds /\ gql_name d = td_name td.
Proof.
  intros F td I K. assert (I' : In td (filter in_document tds)).
  { apply filter_In. split; [exact I|]. apply str_mem_In. exact K. }
  clear I. induction F as [|x d l l' S F IH]; [destruct I'|]. destruct I' as [->|I'].
  - exists d. split; [left; reflexivity|]. destruct S; reflexivity.
  - destruct (IH I') as (d' & Id & Nd). exists d'. split; [right; exact Id|exact Nd].
Qed.
Lemma export_known ds scalars : arrays_known ->
  (forall td f, In td (sc_types sch) -> ts_type (td_spec td) = "Struct" -> In f (ts_fields (td_spec td)) -> field_known (fd_spec f)) ->
  (forall td v, In td (sc_types sch) -> ts_type (td_spec td) = "Union" -> In v (ts_variants (td_spec td)) -> of_kind sch gql_kinds (ts_type (uv_spec v))) ->
  gql_export conf m = Ok (ds, scalars) ->
  forall d n, In d ds -> gql_mentions d n -> In n gql_builtin \/ In n scalars \/ exists d', In d' ds /\ gql_name d' = n.
Proof.
  intros HA HF HV H d n Id M. unfold gql_export in H. rewrite (proj1 (new_model_inv _ _ Hm)) in H.
  destruct (defs_known _ _ _ _ HA HF HV H) as [_ K]. destruct (K d n Id M) as [X|[X|(td & Itd & <- & Ktd)]]; [tauto|tauto|].
  right. right. apply (shape_names _ _ (defs_shape _ _ _ _ H) td Itd Ktd).
Qed.
End GQL.
