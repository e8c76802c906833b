(** Every definition has its shape; targets resolve only if the types they stand for may be named. *)
From Verif Require Import GoStr Outcome Value Schema Misc MiscFacts Model SpecModel ModelFacts SpecPV PVFacts SpecMisc SpecGen OpenApi SpecOpenApi
  OpenApiFacts SpecImport Smithy SmithyFacts SmithyAst SpecSmithy SmithyWrite SmithyShapes SmithyFinal SmithyTypes SmithyRead SmithyHttp.

Section Kept.
Context (ns insuf outsuf : string) (sch : schema) (a : ast).
Notation id_of := (id_of ns).
Notation xs := (flat_map h_exceptions (sc_http sch)).
Hypothesis HP : plain_names sch.
Hypothesis NA : names_apart insuf outsuf sch.
Hypothesis ED : errors_declared sch.
Hypothesis AO : annos_once sch.
Hypothesis MO : members_once sch.
Hypothesis PO : params_once sch.
Hypothesis EX : smithy_export ns insuf outsuf sch = Ok a.
Lemma in_shapes k s : In (k, s) (entries ns insuf outsuf sch) -> In (k, s) (as_shapes a).
Proof. rewrite (shapes_eq ns insuf outsuf sch a HP NA ED EX). auto. Qed.
Lemma type_in td : In td (sc_types sch) -> In (id_of (td_name td), fshape ns td xs) (as_shapes a).
Proof. intros I. apply in_shapes. apply (entry_type ns insuf outsuf sch td I). Qed.
Lemma type_base td : In td (sc_types sch) -> exists s0, shape_of_type ns (td_spec td) (td_annos td) = Ok s0.
Proof. intros I. apply kind_shape. destruct (exportable ns insuf outsuf sch a HP AO EX) as (K & _). apply K. exact I. Qed.
Lemma base_shape td s0 : In td (sc_types sch) -> shape_of_type ns (td_spec td) (td_annos td) = Ok s0 ->
  shape_kind (td_annos td) (ts_type (td_spec td)) (sh_type s0) /\ map fst (sh_members s0) = member_names (td_spec td).
Proof.
  intros I H. specialize (MO td I). destruct MO as (M1 & M2 & M3). unfold member_names. unfold shape_of_type in H. set (ts := td_spec td) in *.
  destruct (str_mem (ts_type ts) number_types) eqn:N.
  { apply str_mem_In in N. injection H as <-. simpl. clear - N. destruct (ts_type ts) as [|c r]; [exfalso; unfold number_types in N; simpl in N; intuition discriminate|].
    unfold number_types in N. simpl in N. repeat (destruct N as [<-|N]; [split; [constructor|reflexivity]|]). destruct N. }
  destruct (ts_type ts =?s "String") eqn:E1. { apply seqb_eq in E1. rewrite E1. injection H as <-. split; [constructor|reflexivity]. }
  destruct (ts_type ts =?s "Enum") eqn:E2.
  { apply seqb_eq in E2. rewrite E2. injection H as <-. split; [constructor|]. simpl. rewrite (put_all_map ee_symbol enum_member) by (apply M2; exact E2). rewrite map_map. reflexivity. }
  destruct (ts_type ts =?s "Struct") eqn:E3.
  { apply seqb_eq in E3. rewrite E3. injection H as <-. split; [constructor|]. simpl. rewrite (put_all_map (@fd_name typespec) (field_member ns)) by (apply M1; exact E3). rewrite map_map. reflexivity. }
  destruct (ts_type ts =?s "Array") eqn:E4.
  { apply seqb_eq in E4. rewrite E4. injection H as <-. split; [|reflexivity]. unfold shape_of_array. simpl sh_type. pose proof (get_annotation_true (td_annos td) "x_unique" (proj1 (proj2 AO) td I)) as G.
    destruct (get_annotation (td_annos td) "x_unique" =?s "true") eqn:X; [apply seqb_eq in X; apply sk_set; apply G; exact X|]. apply seqb_neq in X. apply sk_list. intros Y. apply X. apply G. exact Y. }
  destruct (ts_type ts =?s "Union") eqn:E5.
  { apply seqb_eq in E5. rewrite E5. injection H as <-. split; [constructor|]. simpl. rewrite (put_all_map (@uv_name typespec) (variant_member ns)) by (apply M3; exact E5). rewrite map_map. reflexivity. }
  destruct (ts_type ts =?s "Map") eqn:E6. { apply seqb_eq in E6. rewrite E6. injection H as <-. split; [constructor|reflexivity]. }
  destruct (ts_type ts =?s "UUID") eqn:E7; [|discriminate]. apply seqb_eq in E7. rewrite E7. injection H as <-. split; [constructor|reflexivity].
Qed.
Lemma service_in n : In n (service_names sch) -> In (id_of n, service_shape ns sch) (as_shapes a).
Proof. intros I. apply in_shapes. unfold entries, service_entries. rewrite !in_app_iff. right. right. right. apply (in_map (fun n => (id_of n, service_shape ns sch))). exact I. Qed.
Lemma kept : definitions_kept ns insuf outsuf sch a.
Proof.
  unfold definitions_kept. cbn zeta. split; [|split; [|split; [|split]]].
  - intros td I. exists (fshape ns td xs). split; [apply type_in; exact I|]. destruct (type_base td I) as (s0 & H0). destruct (base_shape td s0 I H0) as [B1 B2].
    destruct (final_rest ns td s0 xs H0) as (FT & _ & _ & _ & FM). rewrite FT. split; [exact B1|]. rewrite <- B2. destruct FM as [->|(k & m & -> & ->)]; reflexivity.
  - intros h I. exists (oshape ns insuf outsuf sch h). split; [apply in_shapes; apply oshape_entry; exact I|].
    destruct (oshape_rest ns insuf outsuf sch a HP AO EX h I) as (T & E1 & E2 & E3 & _). split; [exact T|]. rewrite E1, E2, E3. destruct (proj1 PO h I) as (_ & N1 & N2 & _). split; [|split; [|reflexivity]].
    + unfold io_shape. simpl sh_input. destruct (h_inputs h) as [|i l] eqn:EI; [left; auto|]. right. split; [discriminate|]. split; [reflexivity|]. exists (in_shape ns h).
      split; [apply in_shapes; apply (entry_http ns insuf outsuf sch h _ I); unfold hentries, io_entries; rewrite EI; left; reflexivity|]. split; [reflexivity|].
      unfold in_shape, params_shape. simpl sh_members. rewrite EI. rewrite (put_all_map param_name (input_member ns) (i :: l)) by exact N1. rewrite map_map. reflexivity.
    + unfold io_shape. simpl sh_output. destruct (outputs_of h) as [|i l] eqn:EI; [left; auto|]. right. split; [discriminate|]. split; [reflexivity|]. exists (out_shape ns h).
      split; [apply in_shapes; apply (entry_http ns insuf outsuf sch h _ I); unfold hentries, io_entries; rewrite EI; apply in_app_iff; left; apply in_app_iff; right; left; reflexivity|]. split; [reflexivity|].
      unfold out_shape, params_shape. simpl sh_members. rewrite EI. rewrite (put_all_map param_name (output_member ns) (i :: l)) by exact N2. rewrite map_map. reflexivity.
  - intros o I. exists (oop_shape ns insuf outsuf o). split; [apply in_shapes; apply (entry_op ns insuf outsuf sch o _ I); unfold oentries; apply in_app_iff; simpl; auto|]. split; [reflexivity|].
    destruct (proj2 PO o I) as (N1 & N2). split.
    + unfold io_shape. simpl sh_input. destruct (op_inputs o) as [|i l] eqn:EI; [left; auto|]. right. split; [discriminate|]. split; [reflexivity|]. exists (oin_shape ns o).
      split; [apply in_shapes; apply (entry_op ns insuf outsuf sch o _ I); unfold oentries, io_entries; rewrite EI; left; reflexivity|]. split; [reflexivity|].
      unfold oin_shape. simpl sh_members. rewrite EI. rewrite (put_all_map (@fd_name typespec) (op_in_member ns) (i :: l)) by exact N1. rewrite map_map. reflexivity.
    + unfold io_shape. simpl sh_output. destruct (op_outputs o) as [|i l] eqn:EI; [left; auto|]. right. split; [discriminate|]. split; [reflexivity|]. exists (oout_shape ns o).
      split; [apply in_shapes; apply (entry_op ns insuf outsuf sch o _ I); unfold oentries, io_entries; rewrite EI; apply in_app_iff; left; apply in_app_iff; right; left; reflexivity|]. split; [reflexivity|].
      unfold oout_shape. simpl sh_members. rewrite EI. rewrite (put_all_map Schema.oo_name (op_out_member ns) (i :: l)) by exact N2. rewrite map_map. reflexivity.
  - intros n I. exists (service_shape ns sch). split; [apply service_in; exact I|]. split; [reflexivity|]. unfold service_shape. simpl sh_operations. rewrite (operation_ids_eq ns sch HP).
    rewrite map_app, !map_map. reflexivity.
  - rewrite (shapes_eq ns insuf outsuf sch a HP NA ED EX). unfold entries, service_entries. rewrite !map_app, tkeys. rewrite (flat_keys ns _ (action_names insuf outsuf)) by apply hkeys.
    rewrite (flat_keys ns _ (operation_names insuf outsuf)) by apply okeys. rewrite (map_map (fun n => (id_of n, service_shape ns sch))). cbn [fst]. unfold shape_names. rewrite !map_app. reflexivity.
Qed.

(** ** Targets *)
Lemma member_target td s0 k m : shape_of_type ns (td_spec td) (td_annos td) = Ok s0 -> In (k, m) (sh_members s0) -> shape_ref (fshape ns td xs) (mb_target m).
Proof.
  intros H0 I. destruct (final_rest ns td s0 xs H0) as (_ & _ & _ & _ & [E|(k' & m' & E1 & E2)]).
  - apply (sr_members _ k m). rewrite E. exact I.
  - rewrite E1 in I. destruct I as [I|[]]. injection I as <- <-. change (mb_target m') with (mb_target (paid m')). apply (sr_members _ k' (paid m')). rewrite E2. left. reflexivity.
Qed.
Lemma refs_needed : user_namespace ns -> refs_plain sch -> refs_resolve a -> smithy_refs_ok insuf outsuf sch.
Proof.
  intros HU RP RR. assert (KN : forall n s t, In (n, s) (as_shapes a) -> shape_ref s t -> known ns insuf outsuf sch t).
  { intros n s t I R. apply (resolves_known ns insuf outsuf sch a t HP EX). exact (RR n s t I R). }
  assert (TY : forall td s0, In td (sc_types sch) -> shape_of_type ns (td_spec td) (td_annos td) = Ok s0 -> forall k m, In (k, m) (sh_members s0) -> known ns insuf outsuf sch (mb_target m)).
  { intros td s0 I H0 k m J. apply (KN _ _ _ (type_in td I)). apply (member_target td s0 k m H0 J). }
  unfold smithy_refs_ok. split; [|split; [|split; [|split; [|split; [|split]]]]].
  - intros td f I T J. apply (known_nameable ns insuf outsuf sch _ HU). change (type_reference ns (ts_type (fd_spec f))) with (mb_target (field_member ns f)).
    assert (H0 : shape_of_type ns (td_spec td) (td_annos td) = Ok (shape_of_struct ns (td_spec td))) by (unfold shape_of_type; rewrite T; reflexivity).
    apply (TY td _ I H0 (fd_name f)). unfold shape_of_struct. simpl sh_members. rewrite (put_all_map (@fd_name typespec) (field_member ns)) by (apply (MO td I); exact T).
    apply (in_map (fun x : fielddef => (fd_name x, field_member ns x))). exact J.
  - intros td I T. apply (known_nameable ns insuf outsuf sch _ HU). rewrite <- reference_namespaced.
    assert (H0 : shape_of_type ns (td_spec td) (td_annos td) = Ok (shape_of_array ns (td_spec td) (td_annos td))) by (unfold shape_of_type; rewrite T; reflexivity).
    apply (KN _ _ _ (type_in td I)). destruct (final_rest ns td _ xs H0) as (_ & M & _). apply (sr_member _ _ M).
  - intros td I T. assert (H0 : shape_of_type ns (td_spec td) (td_annos td) = Ok (shape_of_map ns (td_spec td))) by (unfold shape_of_type; rewrite T; reflexivity).
    destruct (final_rest ns td _ xs H0) as (_ & _ & K & V & _).
    split; apply (known_nameable ns insuf outsuf sch _ HU); rewrite <- reference_namespaced; apply (KN _ _ _ (type_in td I)); [apply (sr_value _ _ V)|apply (sr_key _ _ K)].
  - intros td v I T J. apply (known_variant ns insuf outsuf sch _ HU); [apply (proj1 RP td I); exact J|]. change (ensure_namespaced ns (ts_type (uv_spec v))) with (mb_target (variant_member ns v)).
    assert (H0 : shape_of_type ns (td_spec td) (td_annos td) = Ok (shape_of_union ns (td_spec td))) by (unfold shape_of_type; rewrite T; reflexivity).
    apply (TY td _ I H0 (uv_name v)). unfold shape_of_union. simpl sh_members. rewrite (put_all_map (@uv_name typespec) (variant_member ns)) by (apply (MO td I); exact T).
    apply (in_map (fun x : variantdef => (uv_name x, variant_member ns x))). exact J.
  - intros h p I J. apply (known_nameable ns insuf outsuf sch _ HU). destruct (proj1 PO h I) as (_ & N1 & N2 & _). destruct J as [J|J].
    + assert (E : In (id_of (cap (h_name h) +++ insuf), in_shape ns h) (as_shapes a)).
      { apply in_shapes. apply (entry_http ns insuf outsuf sch h _ I). unfold hentries, io_entries. destruct (h_inputs h); [destruct J|]. left. reflexivity. }
      apply (KN _ _ _ E). change (type_reference ns (ts_type (fd_spec (ps_field p)))) with (mb_target (input_member ns p)). apply (sr_members _ (param_name p)).
      unfold in_shape, params_shape. simpl sh_members. rewrite (put_all_map param_name (input_member ns)) by exact N1. apply (in_map (fun p => (param_name p, input_member ns p))). exact J.
    + assert (E : In (id_of (cap (h_name h) +++ outsuf), out_shape ns h) (as_shapes a)).
      { apply in_shapes. apply (entry_http ns insuf outsuf sch h _ I). unfold hentries, io_entries. destruct (outputs_of h); [destruct J|]. apply in_app_iff. left. apply in_app_iff. right. left. reflexivity. }
      apply (KN _ _ _ E). change (type_reference ns (ts_type (fd_spec (ps_field p)))) with (mb_target (output_member ns p)). apply (sr_members _ (param_name p)).
      unfold out_shape, params_shape. simpl sh_members. rewrite (put_all_map param_name (output_member ns)) by exact N2. apply (in_map (fun p => (param_name p, output_member ns p))). exact J.
  - intros o f I J. apply (known_nameable ns insuf outsuf sch _ HU). destruct (proj2 PO o I) as (N1 & N2).
    assert (E : In (id_of (cap (op_name o) +++ insuf), oin_shape ns o) (as_shapes a)).
    { apply in_shapes. apply (entry_op ns insuf outsuf sch o _ I). unfold oentries, io_entries. destruct (op_inputs o); [destruct J|]. left. reflexivity. }
    apply (KN _ _ _ E). change (type_reference ns (ts_type (fd_spec f))) with (mb_target (op_in_member ns f)). apply (sr_members _ (fd_name f)).
    unfold oin_shape. simpl sh_members. rewrite (put_all_map (@fd_name typespec) (op_in_member ns)) by exact N1. apply (in_map (fun f : fielddef => (fd_name f, op_in_member ns f))). exact J.
  - intros o x I J. apply (known_nameable ns insuf outsuf sch _ HU). destruct (proj2 PO o I) as (N1 & N2).
    assert (E : In (id_of (cap (op_name o) +++ outsuf), oout_shape ns o) (as_shapes a)).
    { apply in_shapes. apply (entry_op ns insuf outsuf sch o _ I). unfold oentries, io_entries. destruct (op_outputs o); [destruct J|]. apply in_app_iff. left. apply in_app_iff. right. left. reflexivity. }
    apply (KN _ _ _ E). change (type_reference ns (ts_type (oo_spec x))) with (mb_target (op_out_member ns x)). apply (sr_members _ (Schema.oo_name x)).
    unfold oout_shape. simpl sh_members. rewrite (put_all_map Schema.oo_name (op_out_member ns)) by exact N2. apply (in_map (fun f => (Schema.oo_name f, op_out_member ns f))). exact J.
Qed.
End Kept.
