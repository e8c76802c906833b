From Verif Require Import GoStr Schema SpecModel SpecPV PVFacts Smithy.

Lemma strip_qualified ns n : no_char "#" ns -> strip_namespace (ns +++ "#" +++ n) = n.
Proof.
  intros H. unfold strip_namespace. replace (cut "#" _) with (Some (ns, n)); [reflexivity|].
  symmetry. apply cut_Some. split; [reflexivity|apply no_char_smem; exact H].
Qed.
Lemma strip_plain n : no_char "#" n -> strip_namespace n = n.
Proof. intros H. apply no_char_smem in H. unfold strip_namespace. destruct (cut_None "#" n) as [_ C]. rewrite (C H). reflexivity. Qed.
Lemma namespaced_strip ns n : no_char "#" ns -> no_char "#" n -> strip_namespace (ensure_namespaced ns n) = n.
Proof.
  intros H1 H2. unfold ensure_namespaced. destruct (str_mem n smithy_names); [apply strip_plain; exact H2|].
  assert (E : smem "#" n = false) by (apply no_char_smem; exact H2). rewrite E. apply strip_qualified. exact H1.
Qed.
Lemma namespaced_idem ns ns' n : ensure_namespaced ns' (ensure_namespaced ns n) = ensure_namespaced ns n.
Proof.
  unfold ensure_namespaced at 2 3. destruct (str_mem n smithy_names) eqn:E; [unfold ensure_namespaced; rewrite E; reflexivity|].
  destruct (smem "#" n) eqn:F; simpl; [unfold ensure_namespaced; rewrite E, F; reflexivity|].
  unfold ensure_namespaced. assert (S : smem "#" (ns +++ String "#" n) = true) by (rewrite smem_app; simpl; apply orb_true_r).
  change ("#" +++ n) with (String "#" n). destruct (str_mem (ns +++ String "#" n) smithy_names); [reflexivity|]. rewrite S. reflexivity.
Qed.
Lemma reference_user ns n : ~ In n builtin_names -> type_reference ns n = ns +++ "#" +++ n.
Proof.
  intros H. unfold type_reference.
  repeat match goal with |- context[n =?s ?k] => destruct (n =?s k) eqn:?E; [apply seqb_eq in E; subst n; elim H; simpl; tauto|clear E] end.
  reflexivity.
Qed.
Lemma user_back ns n : no_char "#" ns -> ns <> "smithy.api" -> no_char "#" n -> shape_to_type (ns +++ "#" +++ n) = n.
Proof.
  intros H1 H2 H3. unfold shape_to_type.
  assert (Q : forall a b, no_char "#" a -> ns +++ "#" +++ n = a +++ "#" +++ b -> ns = a).
  { intros a b Ha E. assert (C : Some (ns, n) = Some (a, b)).
    { rewrite <- (proj2 (cut_Some "#" (ns +++ "#" +++ n) ns n)) by (split; [reflexivity|apply no_char_smem; exact H1]).
      apply cut_Some. split; [exact E|apply no_char_smem; exact Ha]. }
    congruence. }
  assert (P : forall k, ns +++ "#" +++ n <> "smithy.api#" +++ k).
  { intros k E. apply H2. apply (Q "smithy.api" k); [apply no_char_smem; reflexivity|exact E]. }
  assert (N : forall k, smem "#" k = false -> ns +++ "#" +++ n <> k).
  { intros k Hk <-. rewrite smem_app in Hk. simpl in Hk. rewrite orb_true_r in Hk. discriminate. }
  assert (M : forall a b, smem "#" b = false -> str_mem (ns +++ "#" +++ n) ["smithy.api#" +++ a; b] = false).
  { intros a b Hb. destruct (str_mem _ _) eqn:E; [|reflexivity]. apply str_mem_In in E. destruct E as [E|[E|[]]].
    - elim (P a). symmetry. exact E.
    - elim (N b Hb). symmetry. exact E. }
  repeat match goal with |- context[str_mem _ [?x; ?b]] =>
    let a := eval vm_compute in (sdrop 11 x) in
    change (str_mem (ns +++ "#" +++ n) [x; b]) with (str_mem (ns +++ "#" +++ n) ["smithy.api#" +++ a; b]);
    rewrite (M a b eq_refl) end.
  apply strip_qualified. exact H1.
Qed.
