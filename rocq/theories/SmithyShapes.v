(** The shapes of the document that is written for a model: their names, their targets, and all of them in order. *)
From Verif Require Import GoStr Outcome Value Schema Misc MiscFacts Model SpecModel ModelFacts SpecPV PVFacts SpecMisc SpecGen OpenApi SpecOpenApi
  OpenApiFacts SpecImport Smithy SmithyFacts SmithyAst SpecSmithy SmithyWrite.

Lemma get_mid {A} k (v : A) pre post : ~ In k (map fst pre) -> get k (pre ++ (k, v) :: post) = Some v.
Proof.
  induction pre as [|[n w] pre IH]; simpl; intros H; [rewrite seqb_refl; reflexivity|].
  destruct (k =?s n) eqn:E; [apply seqb_eq in E; subst n; tauto|]. apply IH. tauto.
Qed.
Lemma put_mid {A} k (v w : A) pre post : ~ In k (map fst pre) -> put k w (pre ++ (k, v) :: post) = pre ++ (k, w) :: post.
Proof.
  induction pre as [|[n x] pre IH]; simpl; intros H; [rewrite seqb_refl; reflexivity|].
  destruct (k =?s n) eqn:E; [apply seqb_eq in E; subst n; tauto|]. rewrite IH by tauto. reflexivity.
Qed.
Lemma prefix_hash a b x y : no_hash a -> no_hash b -> a +++ "#" +++ x = b +++ "#" +++ y -> a = b /\ x = y.
Proof.
  intros Ha Hb E. assert (C : Some (a, x) = Some (b, y)).
  { rewrite <- (proj2 (cut_Some "#" (a +++ "#" +++ x) a x)) by (split; [reflexivity|apply no_char_smem; exact Ha]).
    apply cut_Some. split; [exact E|apply no_char_smem; exact Hb]. }
  split; congruence.
Qed.

Section Shapes.
Context (ns insuf outsuf : string) (sch : schema).
Notation id_of := (id_of ns).
Lemma id_not_api n k : user_namespace ns -> id_of n <> "smithy.api#" +++ k.
Proof.
  intros [H N] E. unfold SmithyAst.id_of in E. change ("smithy.api#" +++ k) with ("smithy.api" +++ "#" +++ k) in E.
  apply prefix_hash in E; [|exact H|apply no_char_smem; reflexivity]. tauto.
Qed.

(** ** Targets *)
Definition known (t : string) : Prop :=
  (exists n, In n prelude /\ t = "smithy.api#" +++ n) \/ exists n, In n (shape_names insuf outsuf sch) /\ t = id_of n.
Definition good (acc : list (string * shape)) : Prop := forall n s t, In (n, s) acc -> shape_ref s t -> known t.
Lemma api_known k : In k prelude -> known ("smithy.api#" +++ k).
Proof. intros I. left. exists k. auto. Qed.
Ltac api := match goal with |- known ?x => let y := eval vm_compute in x in let k := eval vm_compute in (sdrop 11 y) in
  change (known ("smithy.api#" +++ k)); apply api_known; vm_compute; tauto end.
Lemma nameable_known n : nameable insuf outsuf sch n -> known (type_reference ns n).
Proof.
  intros [I|(I & N1 & N2)].
  - unfold smithy_scalars in I. simpl in I. repeat (destruct I as [<-|I]; [api|]). destruct I.
  - unfold type_reference.
    repeat match goal with |- context [n =?s ?k] =>
      destruct (n =?s k) eqn:?E; [first [apply seqb_eq in E; contradiction|api]|clear E] end.
    right. exists n. auto.
Qed.
Lemma known_nameable n : user_namespace ns -> known (type_reference ns n) -> nameable insuf outsuf sch n.
Proof.
  intros U K. unfold type_reference in K.
  assert (A : forall k, ~ In k prelude -> ~ known ("smithy.api#" +++ k)).
  { intros k N [(x & I & E)|(x & I & E)]; [|symmetry in E; apply (id_not_api x k U E)]. apply append_inj_l in E. congruence. }
  destruct (n =?s "Array") eqn:NA; [apply seqb_eq in NA; subst n; exfalso; revert K; apply (A "List"); vm_compute; intuition discriminate|].
  destruct (n =?s "Map") eqn:NM; [apply seqb_eq in NM; subst n; exfalso; revert K; apply (A "Map"); vm_compute; intuition discriminate|].
  apply seqb_neq in NA, NM.
  repeat match type of K with context [n =?s ?k] =>
    destruct (n =?s k) eqn:?E; [apply seqb_eq in E; subst n; left; vm_compute; tauto|clear E] end.
  right. destruct K as [(k & I & E')|(k & I & E')]; [elim (id_not_api n k U E')|]. apply id_inj in E'. subst k. auto.
Qed.
Lemma reference_hash n : smem "#" (type_reference ns n) = true.
Proof.
  unfold type_reference. repeat match goal with |- context [n =?s ?k] => destruct (n =?s k); [reflexivity|] end.
  rewrite smem_app. simpl. apply orb_true_r.
Qed.
Lemma reference_namespaced n : ensure_namespaced ns (type_reference ns n) = type_reference ns n.
Proof.
  unfold ensure_namespaced. destruct (str_mem _ smithy_names) eqn:E; [reflexivity|]. rewrite reference_hash. reflexivity.
Qed.
Lemma variant_known n : In n (shape_names insuf outsuf sch) -> ~ In n bare_names -> no_hash n -> known (ensure_namespaced ns n).
Proof.
  intros I N H. right. exists n. split; [exact I|]. unfold ensure_namespaced.
  destruct (str_mem n smithy_names) eqn:E; [apply str_mem_In in E; contradiction|].
  rewrite (proj1 (no_char_smem _ _) H). reflexivity.
Qed.
Lemma known_variant n : user_namespace ns -> no_hash n -> known (ensure_namespaced ns n) -> In n (shape_names insuf outsuf sch) /\ ~ In n bare_names.
Proof.
  intros U H K. unfold ensure_namespaced in K. destruct (str_mem n smithy_names) eqn:E.
  - exfalso. destruct K as [(k & _ & X)|(k & _ & X)]; apply H; rewrite X; [exists "smithy.api", k; reflexivity|exists ns, k; reflexivity].
  - rewrite (proj1 (no_char_smem _ _) H) in K. simpl in K. destruct K as [(k & _ & X)|(k & I & X)]; [elim (id_not_api n k U X)|].
    apply id_inj in X. subst k. split; [exact I|]. intros J. apply str_mem_In in J. change bare_names with smithy_names in J. congruence.
Qed.

Lemma ref_traits s t r : shape_ref (set_traits s t) r <-> shape_ref s r.
Proof.
  destruct s. unfold set_traits. simpl.
  split; intros H; inversion H; subst; simpl in *;
    first [eapply sr_members; eassumption|apply sr_member; assumption|apply sr_key; assumption|apply sr_value; assumption
          |apply sr_input; assumption|apply sr_output; assumption|apply sr_error; assumption|apply sr_operation; assumption].
Qed.
Lemma ref_annos l : forall s r, shape_ref (fold_left anno_trait l s) r <-> shape_ref s r.
Proof.
  induction l as [|[k v] l IH]; simpl; intros s r; [tauto|]. rewrite IH. unfold anno_trait.
  repeat match goal with |- context [if ?b then _ else _] => destruct b end; unfold add_trait; rewrite ?ref_traits; tauto.
Qed.
Lemma ref_mark z s r : shape_ref (mark_error z s) r -> shape_ref s r.
Proof.
  intros H. unfold mark_error, add_trait in H. simpl sh_members in H. destruct (sh_members s) as [|[k m] [|x l]] eqn:E.
  - rewrite !ref_traits in H. exact H.
  - inversion H; subst; destruct s; simpl in *;
      [|apply sr_member; assumption|apply sr_key; assumption|apply sr_value; assumption|apply sr_input; assumption|apply sr_output; assumption|apply sr_error; assumption|apply sr_operation; assumption].
    subst sh_members. match goal with X : _ \/ False |- _ => destruct X as [X|[]]; injection X as <- <- end. simpl. eapply sr_members. simpl. left. reflexivity.
  - rewrite !ref_traits in H. exact H.
Qed.
Lemma good_put k s acc : good acc -> (forall t, shape_ref s t -> known t) -> good (put k s acc).
Proof. intros G H n s' t I R. apply put_In_sub in I. destruct I as [[-> ->]|I]; [apply H; exact R|exact (G n s' t I R)]. Qed.

Section Ok.
Hypothesis HR : smithy_refs_ok insuf outsuf sch.
Hypothesis HV : forall td v, In td (sc_types sch) -> In v (ts_variants (td_spec td)) -> no_hash (ts_type (uv_spec v)).
Hypothesis HP : plain_names sch.
Lemma shape_good td s r : In td (sc_types sch) -> typedef_shape ns td = Ok s -> shape_ref s r -> known r.
Proof.
  intros I H R. unfold typedef_shape in H. apply rbind_Ok in H. destruct H as (s0 & H & E). injection E as <-. rewrite ref_annos in R.
  assert (R0 : shape_ref s0 r). { destruct (td_comment td =?s ""); [exact R|]. unfold add_trait in R. rewrite ref_traits in R. exact R. }
  clear R. destruct HR as (R1 & R2 & R3 & R4 & _). unfold shape_of_type in H. set (ts := td_spec td) in *. destruct (str_mem (ts_type ts) number_types).
  { injection H as <-. inversion R0; subst; simpl in *; try contradiction; discriminate. }
  destruct (ts_type ts =?s "String"). { injection H as <-. inversion R0; subst; simpl in *; try contradiction; discriminate. }
  destruct (ts_type ts =?s "Enum").
  { injection H as <-. inversion R0; subst; simpl in *; try contradiction; try discriminate. apply put_all_In in H. destruct H as (e & _ & _ & ->).
    left. exists "Unit". split; [vm_compute; tauto|reflexivity]. }
  destruct (ts_type ts =?s "Struct") eqn:E1.
  { apply seqb_eq in E1. injection H as <-. inversion R0; subst; simpl in *; try contradiction; try discriminate. apply put_all_In in H. destruct H as (f & J & _ & ->).
    simpl. apply nameable_known. apply (R1 td f I E1 J). }
  destruct (ts_type ts =?s "Array") eqn:E2.
  { apply seqb_eq in E2. injection H as <-. inversion R0; subst; simpl in *; try contradiction; try discriminate. injection H as <-. simpl.
    rewrite reference_namespaced. apply nameable_known. apply (R2 td I E2). }
  destruct (ts_type ts =?s "Union") eqn:E3.
  { apply seqb_eq in E3. injection H as <-. inversion R0; subst; simpl in *; try contradiction; try discriminate. apply put_all_In in H. destruct H as (v & J & _ & ->).
    simpl. destruct (R4 td v I E3 J). apply variant_known; auto. apply (HV td v I J). }
  destruct (ts_type ts =?s "Map") eqn:E4.
  { apply seqb_eq in E4. destruct (R3 td I E4). injection H as <-. inversion R0; subst; simpl in *; try contradiction; try discriminate;
      match goal with X : Some _ = Some _ |- _ => injection X as <- end; simpl; rewrite reference_namespaced; apply nameable_known; assumption. }
  destruct (ts_type ts =?s "UUID"); [|discriminate]. injection H as <-. inversion R0; subst; simpl in *; try contradiction; discriminate.
Qed.
Lemma types_good tds : (forall td, In td tds -> In td (sc_types sch)) -> forall acc acc', write_types ns tds acc = Ok acc' -> good acc -> good acc'.
Proof.
  induction tds as [|td tds IH]; simpl; intros Q acc acc' H G; [injection H as <-; exact G|]. apply rbind_Ok in H. destruct H as (s & E & H).
  apply (IH (fun x I => Q x (or_intror I)) _ _ H). apply good_put; [exact G|]. intros t R. apply (shape_good td s t (Q td (or_introl eq_refl)) E R).
Qed.
Lemma errors_good xs : forall acc acc', write_errors ns xs acc = Ok acc' -> good acc -> good acc'.
Proof.
  induction xs as [|x xs IH]; simpl; intros acc acc' H G; [injection H as <-; exact G|]. destruct (get (id_of (xc_type x)) acc) as [s|] eqn:E; [|discriminate].
  apply (IH _ _ H). apply good_put; [exact G|]. intros t R. apply ref_mark in R. apply get_Some_In in E. exact (G _ _ _ E R).
Qed.
Definition keyed (acc : list (string * shape)) : Prop := forall k, In k (map fst acc) -> exists n, In n (shape_names insuf outsuf sch) /\ k = id_of n.
Lemma actions_good hs : (forall h, In h hs -> In h (sc_http sch)) -> forall acc acc', write_actions ns insuf outsuf (sc_base sch) hs acc = Ok acc' ->
  good acc -> keyed acc -> good acc' /\ keyed acc'.
Proof.
  destruct HP as (PT & PH & PO & _). destruct HR as (_ & _ & _ & _ & R5 & _).
  induction hs as [|h hs IH]; intros Q acc acc' H G K; cbn [write_actions] in H; [injection H as <-; auto|].
  apply rbind_Ok in H. destruct H as (acc1 & E & H). assert (Ih : In h (sc_http sch)) by (apply Q; left; reflexivity).
  assert (N : forall n, In n (action_names insuf outsuf h) -> In n (shape_names insuf outsuf sch)).
  { intros n I. unfold shape_names. rewrite !in_app_iff. right. left. apply in_flat_map. exists h. auto. }
  assert (K1 : keyed acc1). { intros k I. apply (write_action_keys ns insuf outsuf _ h _ _ (PH h Ih) E) in I. destruct I as [I|(n & I & ->)]; [apply K; exact I|]. exists n. auto. }
  apply (IH (fun x I => Q x (or_intror I)) _ _ H); [|exact K1]. rewrite (write_action_eq ns insuf outsuf _ _ _ (PH h Ih)) in E.
  apply rbind_Ok in E. destruct E as (t & _ & E). unfold action_names, outputs_of in N. specialize (R5 h). unfold outputs_of in R5.
  destruct (h_expected h) as [e|]; [|discriminate]. apply rbind_Ok in E. destruct E as (acc2 & E & F).
  assert (GIO : good (io_put ns insuf outsuf (cap (h_name h)) (h_inputs h) (xp_outputs e)
     (params_shape [("smithy.api#input", TBool true)] (input_member ns) (h_inputs h))
     (params_shape [("smithy.api#output", TBool true)] (output_member ns) (xp_outputs e)) acc)).
  { assert (S : forall mark f ps, (forall p, mb_target (f p) = type_reference ns (ts_type (fd_spec (ps_field p)))) ->
       (forall p, In p ps -> nameable insuf outsuf sch (ts_type (fd_spec (ps_field p)))) -> forall t, shape_ref (params_shape mark f ps) t -> known t).
    { intros mark f ps T X r R. inversion R; subst; simpl in *; try contradiction; try discriminate. apply put_all_In in H0. destruct H0 as (p & J & _ & ->).
      rewrite T. apply nameable_known. apply X. exact J. }
    unfold io_put. assert (G1 : good (match h_inputs h with [] => acc | _ => put (id_of (cap (h_name h) +++ insuf)) (params_shape [("smithy.api#input", TBool true)] (input_member ns) (h_inputs h)) acc end)).
    { destruct (h_inputs h) eqn:EI; [exact G|]. rewrite <- EI in *. apply good_put; [exact G|]. apply S; [reflexivity|]. intros p' J. apply R5; auto. }
    destruct (xp_outputs e) eqn:EO; [exact G1|]. rewrite <- EO in *. apply good_put; [exact G1|]. apply S; [reflexivity|]. intros p' J. apply R5; auto. }
  pose proof (errors_good _ _ _ E GIO) as G2. injection F as <-. apply good_put; [exact G2|]. intros r R.
  inversion R; subst; simpl in *; try contradiction; try discriminate.
  - right. destruct (h_inputs h) eqn:EI; [discriminate|]. injection H0 as <-. eexists. split; [|reflexivity]. apply N. simpl. auto.
  - right. destruct (xp_outputs e) eqn:EO; [discriminate|]. injection H0 as <-. eexists. split; [|reflexivity]. apply N. apply in_app_iff. left. apply in_app_iff. simpl. auto.
  - apply in_map_iff in H0. destruct H0 as (x & <- & J). right.
    assert (IE : In (id_of (xc_type x)) (map fst acc2)).
    { apply (write_errors_keys _ _ _ _ E). apply (proj1 (write_errors_iff ns (h_exceptions h) _) (ex_intro _ acc2 E)). exact J. }
    apply (write_errors_keys _ _ _ _ E) in IE. apply io_put_keys in IE. destruct IE as [IE|(n & IE & ->)]; [apply K; exact IE|]. exists n. split; [|reflexivity].
    apply N. apply in_app_iff. left. exact IE.
Qed.
Lemma write_operation_eq o acc : identifier (op_name o) ->
  write_operation ns insuf outsuf o acc =
  put (id_of (cap (op_name o)))
    (mkShape "operation" "" [("smithy.api#documentation", TStr (op_comment o))] [] None None None
       (match op_inputs o with [] => None | _ => Some (id_of (cap (op_name o) +++ insuf)) end)
       (match op_outputs o with [] => None | _ => Some (id_of (cap (op_name o) +++ outsuf)) end) [] [])
    (io_put ns insuf outsuf (cap (op_name o)) (op_inputs o) (op_outputs o)
       (simple_shape "structure" [] (SmithyAst.put_all (@fd_name typespec) (op_in_member ns) (op_inputs o)))
       (simple_shape "structure" [] (SmithyAst.put_all Schema.oo_name (op_out_member ns) (op_outputs o))) acc).
Proof. intros H. unfold write_operation, io_put. rewrite (cap_eq _ H). destruct (op_inputs o), (op_outputs o); reflexivity. Qed.
Lemma write_operation_keys o acc k : identifier (op_name o) ->
  In k (map fst (write_operation ns insuf outsuf o acc)) <-> In k (map fst acc) \/ exists n, In n (operation_names insuf outsuf o) /\ k = id_of n.
Proof.
  intros H. rewrite (write_operation_eq o acc H), put_keys, io_put_keys. unfold operation_names. split.
  - intros [->|[X|(n & I & ->)]]; [right|auto|right]; eexists; (split; [|reflexivity]); apply in_app_iff; simpl; auto.
  - intros [X|(n & I & ->)]; [auto|]. apply in_app_iff in I. destruct I as [I|[<-|[]]]; [right; right; exists n; auto|auto].
Qed.
Lemma operations_good os : (forall o, In o os -> In o (sc_operations sch)) -> forall acc, good acc -> good (fold_left (fun acc o => write_operation ns insuf outsuf o acc) os acc).
Proof.
  destruct HP as (PT & PH & PO & _). destruct HR as (_ & _ & _ & _ & _ & R6 & R7).
  induction os as [|o os IH]; simpl; intros Q acc G; [exact G|]. apply (IH (fun x I => Q x (or_intror I))).
  assert (Io : In o (sc_operations sch)) by (apply Q; left; reflexivity). rewrite (write_operation_eq o acc (PO o Io)).
  assert (N : forall n, In n (operation_names insuf outsuf o) -> In n (shape_names insuf outsuf sch)).
  { intros n I. unfold shape_names. rewrite !in_app_iff. right. right. left. apply in_flat_map. exists o. auto. }
  unfold operation_names in N. apply good_put.
  - unfold io_put. assert (G1 : good (match op_inputs o with [] => acc | _ => put (id_of (cap (op_name o) +++ insuf)) (simple_shape "structure" [] (SmithyAst.put_all (@fd_name typespec) (op_in_member ns) (op_inputs o))) acc end)).
    { destruct (op_inputs o) eqn:EI; [exact G|]. rewrite <- EI in *. apply good_put; [exact G|]. intros r R.
      inversion R; subst; simpl in *; try contradiction; try discriminate. apply put_all_In in H. destruct H as (f' & J & _ & ->). apply nameable_known. apply (R6 o f' Io J). }
    destruct (op_outputs o) eqn:EI; [exact G1|]. rewrite <- EI in *. apply good_put; [exact G1|]. intros r R.
    inversion R; subst; simpl in *; try contradiction; try discriminate. apply put_all_In in H. destruct H as (f' & J & _ & ->). apply nameable_known. apply (R7 o f' Io J).
  - intros r R. inversion R; subst; simpl in *; try contradiction; try discriminate.
    + right. destruct (op_inputs o) eqn:EI; [discriminate|]. injection H as <-. eexists. split; [|reflexivity]. apply N. simpl. auto.
    + right. destruct (op_outputs o) eqn:EO; [discriminate|]. injection H as <-. eexists. split; [|reflexivity]. apply N. apply in_app_iff. left. apply in_app_iff. simpl. auto.
Qed.
Lemma operations_keys os : (forall o, In o os -> identifier (op_name o)) -> forall acc k,
  In k (map fst (fold_left (fun acc o => write_operation ns insuf outsuf o acc) os acc)) <-> In k (map fst acc) \/ exists n, In n (flat_map (operation_names insuf outsuf) os) /\ k = id_of n.
Proof.
  induction os as [|o os IH]; simpl; intros Q acc k; [split; [auto|intros [X|(n & [] & _)]; exact X]|].
  rewrite (IH (fun x I => Q x (or_intror I))), (write_operation_keys _ _ _ (Q o (or_introl eq_refl))). split.
  - intros [[X|(n & I & ->)]|(n & I & ->)]; [auto|right|right]; exists n; (split; [apply in_app_iff; auto|reflexivity]).
  - intros [X|(n & I & ->)]; [auto|]. apply in_app_iff in I. destruct I as [I|I]; [left; right|right]; exists n; auto.
Qed.
Lemma name_eq s : s = "" \/ identifier s -> capitalize s = cap s.
Proof. intros [->|H]; [reflexivity|apply cap_eq; exact H]. Qed.
Lemma operation_ids_eq : operation_ids ns sch = map (fun h => id_of (cap (h_name h))) (sc_http sch) ++ map (fun o => id_of (cap (op_name o))) (sc_operations sch).
Proof.
  destruct HP as (PT & PH & PO & _). unfold operation_ids. f_equal; apply map_ext_in.
  - intros h I. rewrite shape_name_eq by (apply PH; exact I). reflexivity.
  - intros o I. rewrite cap_eq by (apply PO; exact I). reflexivity.
Qed.
Definition service_shape : shape :=
  mkShape "service" (or_else "0.0" (sc_version sch)) (match sc_comment sch with EmptyString => [] | c => [("smithy.api#documentation", TStr c)] end)
    [] None None None None None [] (operation_ids ns sch).
Lemma write_service_eq acc : write_service ns sch acc = match service_names sch with [] => acc | _ => put (id_of (cap (sc_name sch))) service_shape acc end.
Proof.
  unfold write_service, service_names, service_shape. pose proof operation_ids_eq as E. destruct HP as (_ & _ & _ & PN). rewrite (name_eq _ PN).
  destruct (operation_ids ns sch) as [|i l].
  - destruct (sc_http sch), (sc_operations sch); try discriminate. reflexivity.
  - replace (match sc_http sch, sc_operations sch with [], [] => [] | _, _ => [cap (sc_name sch)] end) with [cap (sc_name sch)]
      by (destruct (sc_http sch), (sc_operations sch); try reflexivity; discriminate).
    destruct (sc_version sch), (sc_comment sch); reflexivity.
Qed.
Lemma service_keys acc k : In k (map fst (write_service ns sch acc)) <-> In k (map fst acc) \/ exists n, In n (service_names sch) /\ k = id_of n.
Proof.
  rewrite write_service_eq. unfold service_names. destruct (sc_http sch), (sc_operations sch);
    try (rewrite put_keys; split; [intros [->|X]; [right; eexists; split; [left; reflexivity|reflexivity]|auto]|intros [X|(n & [<-|[]] & ->)]; auto]).
  split; [auto|intros [X|(n & [] & _)]; exact X].
Qed.
Lemma service_good acc : good acc -> good (write_service ns sch acc).
Proof.
  intros G. rewrite write_service_eq. destruct (service_names sch); [exact G|]. apply good_put; [exact G|]. intros r R.
  inversion R; subst; simpl in *; try contradiction; try discriminate. rewrite operation_ids_eq in H. right. unfold shape_names.
  apply in_app_iff in H. destruct H as [H|H]; apply in_map_iff in H; destruct H as (x & <- & I); eexists; (split; [|reflexivity]); rewrite !in_app_iff; right.
  - left. apply in_flat_map. exists x. split; [exact I|]. unfold action_names. apply in_app_iff. simpl. auto.
  - right. left. apply in_flat_map. exists x. split; [exact I|]. unfold operation_names. apply in_app_iff. simpl. auto.
Qed.
Lemma examples_good exs hs : forall acc acc', write_examples ns exs hs acc = Ok acc' -> good acc -> good acc'.
Proof.
  induction hs as [|h hs IH]; simpl; intros acc acc' H G; [injection H as <-; exact G|]. apply rbind_Ok in H. destruct H as (l & _ & H).
  apply (IH _ _ H). destruct (get (id_of (capitalize (h_name h))) acc) as [s|] eqn:E; [|exact G]. destruct l; [exact G|]. apply good_put; [exact G|].
  intros r R. unfold add_trait in R. rewrite ref_traits in R. apply get_Some_In in E. exact (G _ _ _ E R).
Qed.
End Ok.

(** the keys of the document *)
Lemma export_keys a : plain_names sch -> smithy_export ns insuf outsuf sch = Ok a ->
  forall k, In k (map fst (as_shapes a)) <-> exists n, In n (shape_names insuf outsuf sch) /\ k = id_of n.
Proof.
  intros HP H k. pose proof HP as (PT & PH & PO & PN). unfold smithy_export in H. apply rbind_Ok in H. destruct H as (a1 & E1 & H).
  apply rbind_Ok in H. destruct H as (a2 & E2 & H). apply rbind_Ok in H. destruct H as (a3 & E3 & H). injection H as <-. simpl.
  assert (K3 : In k (map fst a3) <-> In k (map fst (write_service ns sch (fold_left (fun acc o => write_operation ns insuf outsuf o acc) (sc_operations sch) a2)))).
  { destruct (sc_examples sch); [injection E3 as <-; tauto|]. apply (write_examples_keys _ _ _ _ _ E3). }
  rewrite K3, (service_keys HP), (operations_keys (sc_operations sch) PO), (write_actions_keys ns insuf outsuf _ _ PH _ _ E2), (write_types_keys _ _ _ _ E1).
  unfold shape_names. split.
  - intros [[[[[]|(td & I & ->)]|(n & I & ->)]|(n & I & ->)]|(n & I & ->)]; eexists; (split; [|reflexivity]); rewrite !in_app_iff; auto. left. apply in_map. exact I.
  - intros (n & I & ->). rewrite !in_app_iff in I. destruct I as [I|[I|[I|I]]]; eauto 6.
    apply in_map_iff in I. destruct I as (td & <- & I). left. left. left. right. exists td. auto.
Qed.
Lemma resolves_known a t : plain_names sch -> smithy_export ns insuf outsuf sch = Ok a -> ref_resolves a t <-> known t.
Proof.
  intros HP H. unfold ref_resolves, known. pose proof (export_keys a HP H t) as K. split; intros [X|X]; auto; right.
  - apply K. destruct X as (s & I). apply (in_map fst) in I. exact I.
  - apply K in X. apply in_map_iff in X. destruct X as ([k s] & E & I). simpl in E. subst k. exists s. exact I.
Qed.
Lemma refs_resolve_ok a : plain_names sch -> (forall td v, In td (sc_types sch) -> In v (ts_variants (td_spec td)) -> no_hash (ts_type (uv_spec v))) ->
  smithy_export ns insuf outsuf sch = Ok a -> smithy_refs_ok insuf outsuf sch -> refs_resolve a.
Proof.
  intros HP HV H HR n s t I R. apply (resolves_known a t HP H). revert n s t I R. change (good (as_shapes a)).
  pose proof HP as (PT & PH & PO & PN). unfold smithy_export in H. apply rbind_Ok in H. destruct H as (a1 & E1 & H).
  apply rbind_Ok in H. destruct H as (a2 & E2 & H). apply rbind_Ok in H. destruct H as (a3 & E3 & H). injection H as <-. simpl.
  assert (G1 : good a1). { apply (types_good HR HV (sc_types sch) (fun td I => I) [] a1 E1). intros ? ? ? []. }
  assert (G2 : good a2 /\ keyed a2).
  { apply (actions_good HR HP (sc_http sch) (fun td I => I) a1 a2 E2 G1). intros k I. apply (write_types_keys _ _ _ _ E1) in I. destruct I as [[]|(td & I & ->)].
    exists (td_name td). split; [|reflexivity]. unfold shape_names. apply in_app_iff. left. apply in_map. exact I. }
  destruct G2 as [G2 _].
  assert (G3 : good (write_service ns sch (fold_left (fun acc o => write_operation ns insuf outsuf o acc) (sc_operations sch) a2))).
  { apply (service_good HP). apply (operations_good HR HP (sc_operations sch) (fun o I => I) a2 G2). }
  destruct (sc_examples sch); [injection E3 as <-; exact G3|]. apply (examples_good _ _ _ _ E3 G3).
Qed.
End Shapes.
