(** All the shapes of a written document, in order, when no two definitions share a name. *)
From Verif Require Import GoStr Outcome Value Schema Misc MiscFacts Model SpecModel ModelFacts SpecPV PVFacts SpecMisc SpecGen OpenApi SpecOpenApi
  OpenApiFacts SpecImport Smithy SmithyFacts SmithyAst SpecSmithy SmithyWrite SmithyShapes.

Lemma NoDup_app_l {A} (a b : list A) : NoDup (a ++ b) -> NoDup a.
Proof. induction a as [|x a IH]; simpl; intros H; [constructor|]. inversion H; subst. constructor; [rewrite in_app_iff in *; tauto|auto]. Qed.
Lemma NoDup_app_r {A} (a b : list A) : NoDup (a ++ b) -> NoDup b.
Proof. induction a as [|x a IH]; simpl; intros H; [exact H|]. inversion H; auto. Qed.
Lemma NoDup_app_not {A} (a b : list A) x : NoDup (a ++ b) -> In x a -> ~ In x b.
Proof. induction a as [|y a IH]; simpl; intros H I J; [exact I|]. inversion H; subst. destruct I as [->|I]; [apply H2; apply in_app_iff; auto|exact (IH H3 I J)]. Qed.
Lemma app_ne_match {A B} (l : list A) (x : B) y : match l with [] => x | _ => y end = if match l with [] => true | _ => false end then x else y.
Proof. destruct l; reflexivity. Qed.

Section Final.
Context (ns insuf outsuf : string).
Notation id_of := (id_of ns).
Definition tshape (td : typedef) : shape := match typedef_shape ns td with Ok s => s | _ => simple_shape "" [] [] end.
Definition mark1 (n : string) (s : shape) (x : exceptionspec) : shape := if xc_type x =?s n then mark_error (xc_status x) s else s.
Definition marks (xs : list exceptionspec) (n : string) (s : shape) : shape := fold_left (mark1 n) xs s.
Definition tentry (xs : list exceptionspec) (td : typedef) : string * shape := (id_of (td_name td), marks xs (td_name td) (tshape td)).
Definition io_entries {A B} (name : string) (ins : list A) (outs : list B) (si so : shape) : list (string * shape) :=
  (match ins with [] => [] | _ => [(id_of (cap name +++ insuf), si)] end) ++ (match outs with [] => [] | _ => [(id_of (cap name +++ outsuf), so)] end).
Definition in_shape (h : httpdef) : shape := params_shape [("smithy.api#input", TBool true)] (input_member ns) (h_inputs h).
Definition out_shape (h : httpdef) : shape := params_shape [("smithy.api#output", TBool true)] (output_member ns) (outputs_of h).
Definition traits_of (base : string) (h : httpdef) : traits := match action_traits base h with Ok t => t | _ => [] end.
Definition op_shape (base : string) (h : httpdef) : shape :=
  mkShape "operation" "" (traits_of base h) [] None None None
    (match h_inputs h with [] => None | _ => Some (id_of (cap (h_name h) +++ insuf)) end)
    (match outputs_of h with [] => None | _ => Some (id_of (cap (h_name h) +++ outsuf)) end)
    (map (fun x => id_of (xc_type x)) (h_exceptions h)) [].
Definition hentries (g : httpdef -> shape -> shape) (base : string) (h : httpdef) : list (string * shape) :=
  io_entries (h_name h) (h_inputs h) (outputs_of h) (in_shape h) (out_shape h) ++ [(id_of (cap (h_name h)), g h (op_shape base h))].
Definition oin_shape (o : opdef) : shape := simple_shape "structure" [] (SmithyAst.put_all (@fd_name typespec) (op_in_member ns) (op_inputs o)).
Definition oout_shape (o : opdef) : shape := simple_shape "structure" [] (SmithyAst.put_all Schema.oo_name (op_out_member ns) (op_outputs o)).
Definition oop_shape (o : opdef) : shape :=
  mkShape "operation" "" [("smithy.api#documentation", TStr (op_comment o))] [] None None None
       (match op_inputs o with [] => None | _ => Some (id_of (cap (op_name o) +++ insuf)) end)
       (match op_outputs o with [] => None | _ => Some (id_of (cap (op_name o) +++ outsuf)) end) [] [].
Definition oentries (o : opdef) : list (string * shape) :=
  io_entries (op_name o) (op_inputs o) (op_outputs o) (oin_shape o) (oout_shape o) ++ [(id_of (cap (op_name o)), oop_shape o)].
Definition service_entries (sch : schema) : list (string * shape) := map (fun n => (id_of n, service_shape ns sch)) (service_names sch).
Definition titles (exs : list exampledef) (h : httpdef) : list tval := match action_examples exs h with Ok l => l | _ => [] end.
Definition with_examples (exs : list exampledef) (h : httpdef) (s : shape) : shape :=
  match titles exs h with [] => s | l => add_trait "smithy.api#examples" (TArr l) s end.

Lemma io_keys {A B} name (ins : list A) (outs : list B) si so : map fst (io_entries name ins outs si so) = map id_of (io_names insuf outsuf name ins outs).
Proof. unfold io_entries, io_names. destruct ins, outs; reflexivity. Qed.
Lemma hkeys g base h : map fst (hentries g base h) = map id_of (action_names insuf outsuf h).
Proof. unfold hentries, action_names. rewrite !map_app, io_keys. reflexivity. Qed.
Lemma okeys o : map fst (oentries o) = map id_of (operation_names insuf outsuf o).
Proof. unfold oentries, operation_names. rewrite !map_app, io_keys. reflexivity. Qed.
Lemma flat_keys {A} (f : A -> list (string * shape)) (g : A -> list string) l : (forall x, map fst (f x) = map id_of (g x)) -> map fst (flat_map f l) = map id_of (flat_map g l).
Proof. intros H. induction l as [|x l IH]; simpl; [reflexivity|]. rewrite !map_app, IH, H. reflexivity. Qed.

Lemma types_entries tds : forall acc acc', write_types ns tds acc = Ok acc' -> NoDup (map fst acc ++ map id_of (map td_name tds)) -> acc' = acc ++ map (tentry []) tds.
Proof.
  induction tds as [|td tds IH]; simpl; intros acc acc' H N; [injection H as <-; rewrite app_nil_r; reflexivity|].
  apply rbind_Ok in H. destruct H as (s & E & H). assert (F : ~ In (id_of (td_name td)) (map fst acc)).
  { apply NoDup_remove_2 in N. rewrite in_app_iff in N. tauto. }
  rewrite put_fresh in H by exact F. rewrite (IH _ _ H); [|rewrite map_app, <- app_assoc; exact N].
  rewrite <- app_assoc. unfold tentry at 2. unfold tshape. rewrite E. reflexivity.
Qed.
Lemma marks_snoc xs x n s : marks (xs ++ [x]) n s = mark1 n (marks xs n s) x.
Proof. unfold marks. apply fold_left_app. Qed.
Lemma errors_entries tds xs : NoDup (map td_name tds) -> (forall x, In x xs -> In (xc_type x) (map td_name tds)) -> forall x0 rest acc',
  write_errors ns xs (map (tentry x0) tds ++ rest) = Ok acc' -> acc' = map (tentry (x0 ++ xs)) tds ++ rest.
Proof.
  intros N. induction xs as [|x xs IH]; intros D x0 rest acc' H; cbn [write_errors] in H; [injection H as <-; rewrite app_nil_r; reflexivity|].
  assert (I : In (xc_type x) (map td_name tds)) by (apply D; left; reflexivity). apply in_map_iff in I. destruct I as (td & E & I).
  apply in_split in I. destruct I as (l1 & l2 & ->). rewrite map_app in N. simpl in N.
  assert (F1 : ~ In (td_name td) (map td_name l1)) by (apply NoDup_remove_2 in N; rewrite in_app_iff in N; tauto).
  assert (F2 : ~ In (td_name td) (map td_name l2)) by (apply NoDup_remove_2 in N; rewrite in_app_iff in N; tauto).
  assert (K : forall a, ~ In (id_of (td_name td)) (map fst (map (tentry a) l1))).
  { intros a J. rewrite map_map in J. apply in_map_iff in J. destruct J as (d & X & J). apply id_inj in X. apply F1. rewrite <- X. apply in_map. exact J. }
  replace (map (tentry x0) (l1 ++ td :: l2) ++ rest) with (map (tentry x0) l1 ++ (id_of (td_name td), marks x0 (td_name td) (tshape td)) :: (map (tentry x0) l2 ++ rest)) in H
    by (rewrite map_app, <- app_assoc; reflexivity).
  rewrite <- E, get_mid, put_mid in H by apply K.
  replace (map (tentry x0) l1 ++ (id_of (td_name td), mark_error (xc_status x) (marks x0 (td_name td) (tshape td))) :: map (tentry x0) l2 ++ rest)
    with (map (tentry (x0 ++ [x])) (l1 ++ td :: l2) ++ rest) in H.
  - apply IH in H; [|intros y J; apply D; right; exact J]. rewrite <- app_assoc in H. exact H.
  - rewrite map_app, <- app_assoc. cbn [map app]. f_equal; [|f_equal; [|f_equal]].
    + apply map_ext_in. intros d J. unfold tentry. rewrite marks_snoc. unfold mark1. destruct (xc_type x =?s td_name d) eqn:X; [|reflexivity].
      apply seqb_eq in X. elim F1. rewrite E, X. apply in_map. exact J.
    + unfold tentry. rewrite marks_snoc. unfold mark1. rewrite <- E, seqb_refl. reflexivity.
    + apply map_ext_in. intros d J. unfold tentry. rewrite marks_snoc. unfold mark1. destruct (xc_type x =?s td_name d) eqn:X; [|reflexivity].
      apply seqb_eq in X. elim F2. rewrite E, X. apply in_map. exact J.
Qed.
Lemma io_put_fresh {A B} name (ins : list A) (outs : list B) si so acc :
  NoDup (map fst acc ++ map id_of (io_names insuf outsuf name ins outs)) ->
  io_put ns insuf outsuf (cap name) ins outs si so acc = acc ++ io_entries name ins outs si so.
Proof.
  unfold io_put, io_entries, io_names. destruct ins as [|i ins], outs as [|o outs]; simpl; intros N.
  - rewrite app_nil_r. reflexivity.
  - apply put_fresh. apply NoDup_remove_2 in N. rewrite app_nil_r in N. exact N.
  - apply put_fresh. apply NoDup_remove_2 in N. rewrite app_nil_r in N. exact N.
  - pose proof (NoDup_remove_2 _ _ _ N) as N1. rewrite in_app_iff in N1. apply NoDup_remove_1 in N as N2. apply NoDup_remove_2 in N2. rewrite app_nil_r in N2.
    rewrite (put_fresh (id_of (cap name +++ insuf))) by tauto. rewrite put_fresh; [rewrite <- app_assoc; reflexivity|].
    rewrite map_app, in_app_iff. simpl in *. intuition.
Qed.
Lemma tkeys x0 tds : map fst (map (tentry x0) tds) = map id_of (map td_name tds).
Proof. rewrite !map_map. reflexivity. Qed.
Lemma actions_entries base tds hs : NoDup (map td_name tds) -> (forall h, In h hs -> identifier (h_name h)) ->
  (forall h x, In h hs -> In x (h_exceptions h) -> In (xc_type x) (map td_name tds)) -> forall x0 rest acc',
  write_actions ns insuf outsuf base hs (map (tentry x0) tds ++ rest) = Ok acc' ->
  NoDup (map id_of (map td_name tds) ++ map fst rest ++ map id_of (flat_map (action_names insuf outsuf) hs)) ->
  acc' = map (tentry (x0 ++ flat_map h_exceptions hs)) tds ++ rest ++ flat_map (hentries (fun _ s => s) base) hs.
Proof.
  intros N. induction hs as [|h hs IH]; intros W D x0 rest acc' H ND; cbn [write_actions flat_map] in *.
  - injection H as <-. rewrite !app_nil_r. reflexivity.
  - apply rbind_Ok in H. destruct H as (a1 & E & H). rewrite (write_action_eq ns insuf outsuf _ _ _ (W h (or_introl eq_refl))) in E.
    apply rbind_Ok in E. destruct E as (t & ET & E). destruct (h_expected h) as [e|] eqn:EE; [|discriminate].
    apply rbind_Ok in E. destruct E as (a2 & E & F). injection F as <-.
    assert (EO : outputs_of h = xp_outputs e) by (unfold outputs_of; rewrite EE; reflexivity).
    unfold action_names in ND at 1. rewrite EO in ND. rewrite map_app in ND. rewrite map_app in ND. rewrite <- !app_assoc in ND.
    set (io := map id_of (io_names insuf outsuf (h_name h) (h_inputs h) (xp_outputs e))) in *.
    rewrite io_put_fresh in E.
    2:{ rewrite map_app, tkeys, <- app_assoc. fold io. rewrite !app_assoc in ND. apply NoDup_app_l in ND. apply NoDup_app_l in ND. rewrite <- app_assoc in ND. exact ND. }
    rewrite <- app_assoc in E. apply (errors_entries tds _ N (fun x => D h x (or_introl eq_refl))) in E. subst a2.
    rewrite put_fresh in H.
    2:{ rewrite !map_app, tkeys, io_keys. fold io. cbn [map app] in ND. repeat rewrite app_assoc in ND; repeat rewrite app_assoc. apply NoDup_remove_2 in ND. rewrite in_app_iff in ND. tauto. }
    rewrite <- !app_assoc in H. apply (IH (fun x I => W x (or_intror I)) (fun g x I => D g x (or_intror I))) in H.
    + rewrite H. rewrite <- !app_assoc. do 2 f_equal. unfold hentries at 2. rewrite <- app_assoc. rewrite EO. unfold in_shape, out_shape. rewrite EO. do 3 f_equal.
      unfold op_shape, traits_of. rewrite ET, EO. reflexivity.
    + rewrite !map_app, io_keys. fold io. rewrite <- !app_assoc. exact ND.
Qed.
Lemma operations_entries os : (forall o, In o os -> identifier (op_name o)) -> forall acc,
  NoDup (map fst acc ++ map id_of (flat_map (operation_names insuf outsuf) os)) ->
  fold_left (fun acc o => write_operation ns insuf outsuf o acc) os acc = acc ++ flat_map oentries os.
Proof.
  induction os as [|o os IH]; cbn [fold_left flat_map]; intros W acc ND; [rewrite app_nil_r; reflexivity|].
  rewrite (write_operation_eq ns insuf outsuf o acc (W o (or_introl eq_refl))).
  unfold operation_names in ND at 1. rewrite map_app, map_app in ND.
  rewrite io_put_fresh. 2:{ rewrite !app_assoc in ND. apply NoDup_app_l in ND. apply NoDup_app_l in ND. exact ND. }
  rewrite put_fresh. 2:{ rewrite map_app, io_keys. repeat rewrite app_assoc in ND; repeat rewrite app_assoc. apply NoDup_app_l in ND. simpl in ND. apply NoDup_remove_2 in ND. rewrite app_nil_r in ND. exact ND. }
  rewrite IH; [|intros x I; apply W; right; exact I|].
  - unfold oentries at 2. rewrite <- !app_assoc. reflexivity.
  - rewrite !map_app, io_keys. repeat rewrite <- app_assoc in ND; repeat rewrite <- app_assoc. exact ND.
Qed.
Lemma examples_entries base exs hs : (forall h, In h hs -> identifier (h_name h)) -> forall pre post acc',
  write_examples ns exs hs (pre ++ flat_map (hentries (fun _ s => s) base) hs ++ post) = Ok acc' ->
  NoDup (map fst pre ++ map id_of (flat_map (action_names insuf outsuf) hs)) ->
  acc' = pre ++ flat_map (hentries (with_examples exs) base) hs ++ post.
Proof.
  induction hs as [|h hs IH]; cbn [write_examples flat_map]; intros W pre post acc' H ND; [injection H as <-; reflexivity|].
  apply rbind_Ok in H. destruct H as (l & E & H). rewrite (cap_eq _ (W h (or_introl eq_refl))) in H.
  set (io := io_entries (h_name h) (h_inputs h) (outputs_of h) (in_shape h) (out_shape h)) in *.
  assert (K : ~ In (id_of (cap (h_name h))) (map fst (pre ++ io))).
  { unfold io. rewrite map_app, io_keys. unfold action_names in ND at 1. rewrite map_app, map_app in ND. simpl in ND. rewrite !app_assoc in ND. apply NoDup_app_l in ND.
    apply NoDup_remove_2 in ND. rewrite app_nil_r in ND. exact ND. }
  assert (Q : pre ++ (hentries (fun _ s => s) base h ++ flat_map (hentries (fun _ s => s) base) hs) ++ post
    = (pre ++ io) ++ (id_of (cap (h_name h)), op_shape base h) :: flat_map (hentries (fun _ s => s) base) hs ++ post).
  { unfold hentries at 1. fold io. rewrite <- !app_assoc. reflexivity. }
  rewrite Q, get_mid in H by exact K.
  assert (G : match l with [] => (pre ++ io) ++ (id_of (cap (h_name h)), op_shape base h) :: flat_map (hentries (fun _ s => s) base) hs ++ post
     | _ :: _ => put (id_of (cap (h_name h))) (add_trait "smithy.api#examples" (TArr l) (op_shape base h)) ((pre ++ io) ++ (id_of (cap (h_name h)), op_shape base h) :: flat_map (hentries (fun _ s => s) base) hs ++ post) end
     = (pre ++ hentries (with_examples exs) base h) ++ flat_map (hentries (fun _ s => s) base) hs ++ post).
  { unfold hentries at 3. unfold with_examples, titles. rewrite E. fold io. destruct l; [rewrite <- !app_assoc; reflexivity|]. rewrite put_mid by exact K. rewrite <- !app_assoc. reflexivity. }
  assert (G2 : write_examples ns exs hs ((pre ++ hentries (with_examples exs) base h) ++ flat_map (hentries (fun _ s => s) base) hs ++ post) = Ok acc').
  { rewrite <- G. destruct l; exact H. }
  apply IH in G2; [|intros x I; apply W; right; exact I|].
  - rewrite G2, <- !app_assoc. reflexivity.
  - rewrite map_app, hkeys, <- app_assoc, <- map_app. exact ND.
Qed.

Section Doc.
Context (sch : schema) (a : ast).
Hypothesis HP : plain_names sch.
Hypothesis NA : names_apart insuf outsuf sch.
Hypothesis ED : errors_declared sch.
Hypothesis EX : smithy_export ns insuf outsuf sch = Ok a.
Definition entries : list (string * shape) :=
  map (tentry (flat_map h_exceptions (sc_http sch))) (sc_types sch)
  ++ flat_map (hentries (with_examples (sc_examples sch)) (sc_base sch)) (sc_http sch)
  ++ flat_map oentries (sc_operations sch) ++ service_entries sch.
Lemma nodup_ids : NoDup (map id_of (shape_names insuf outsuf sch)).
Proof. apply FinFun.Injective_map_NoDup; [intros x y; apply id_inj|exact NA]. Qed.
Lemma with_no_examples h s : with_examples [] h s = s.
Proof. reflexivity. Qed.
Lemma export_entries : as_shapes a = entries /\ as_meta a = match sc_base sch with EmptyString => [] | b => [("base", TStr b)] end.
Proof.
  pose proof nodup_ids as ND. unfold shape_names in ND. rewrite !map_app in ND. destruct HP as (PT & PH & PO & PN).
  pose proof EX as H. unfold smithy_export in H. apply rbind_Ok in H. destruct H as (a1 & E1 & H).
  apply rbind_Ok in H. destruct H as (a2 & E2 & H). apply rbind_Ok in H. destruct H as (a3 & E3 & H). injection H as <-.
  split; [|simpl; destruct (sc_base sch); reflexivity]. simpl. clear EX.
  apply types_entries in E1; [|simpl; apply NoDup_app_l in ND; exact ND]. simpl in E1. subst a1.
  assert (ND0 : NoDup (map td_name (sc_types sch))) by (apply NoDup_app_l in NA; exact NA).
  rewrite <- (app_nil_r (map (tentry []) _)) in E2.
  apply (actions_entries (sc_base sch) (sc_types sch) (sc_http sch) ND0 PH) in E2.
  3:{ simpl. rewrite app_assoc in ND. apply NoDup_app_l in ND. exact ND. }
  2:{ intros h x I J. destruct (ED h x I J) as (td & K & <-). apply in_map. exact K. }
  simpl in E2. subst a2.
  rewrite (operations_entries _ PO) in E3.
  2:{ rewrite map_app, tkeys. rewrite (flat_keys _ (action_names insuf outsuf)) by apply hkeys. rewrite <- app_assoc. rewrite !app_assoc in ND. apply NoDup_app_l in ND. rewrite <- !app_assoc in ND. exact ND. }
  rewrite (write_service_eq ns sch HP) in E3.
  assert (SV : forall pre, map fst pre = map id_of (map td_name (sc_types sch)) ++ map id_of (flat_map (action_names insuf outsuf) (sc_http sch)) ++ map id_of (flat_map (operation_names insuf outsuf) (sc_operations sch)) ->
     match service_names sch with [] => pre | _ => put (id_of (cap (sc_name sch))) (service_shape ns sch) pre end = pre ++ service_entries sch).
  { intros pre K. unfold service_entries. unfold service_names in *. destruct (sc_http sch), (sc_operations sch); try (rewrite app_nil_r; reflexivity);
      (rewrite put_fresh; [reflexivity|]; rewrite K; rewrite !app_assoc in ND; apply NoDup_remove_2 in ND; rewrite app_nil_r, <- !app_assoc in ND; exact ND). }
  rewrite SV in E3 by (rewrite !map_app, tkeys; rewrite (flat_keys _ (action_names insuf outsuf)) by apply hkeys;
    rewrite (flat_keys _ (operation_names insuf outsuf)) by apply okeys; rewrite <- app_assoc; reflexivity).
  unfold entries. destruct (sc_examples sch) as [|e l] eqn:EE.
  - injection E3 as <-. rewrite <- !app_assoc. do 2 f_equal.
  - rewrite <- !app_assoc in E3. apply examples_entries in E3; [exact E3|exact PH|].
    rewrite tkeys. rewrite app_assoc in ND. apply NoDup_app_l in ND. exact ND.
Qed.
Lemma entries_nodup : NoDup (map fst entries).
Proof.
  unfold entries, service_entries. rewrite !map_app, tkeys. rewrite (flat_keys _ (action_names insuf outsuf)) by apply hkeys.
  rewrite (flat_keys _ (operation_names insuf outsuf)) by apply okeys. rewrite (map_map (fun n => (id_of n, service_shape ns sch))). cbn [fst]. pose proof nodup_ids as ND. unfold shape_names in ND. repeat rewrite map_app in ND. exact ND.
Qed.
Lemma entry_type td : In td (sc_types sch) -> In (tentry (flat_map h_exceptions (sc_http sch)) td) entries.
Proof. intros I. unfold entries. apply in_app_iff. left. apply in_map. exact I. Qed.
Lemma entry_http h e : In h (sc_http sch) -> In e (hentries (with_examples (sc_examples sch)) (sc_base sch) h) -> In e entries.
Proof. intros I J. unfold entries. apply in_app_iff. right. apply in_app_iff. left. apply in_flat_map. exists h. auto. Qed.
Lemma entry_op o e : In o (sc_operations sch) -> In e (oentries o) -> In e entries.
Proof. intros I J. unfold entries. apply in_app_iff. right. apply in_app_iff. right. apply in_app_iff. left. apply in_flat_map. exists o. auto. Qed.
End Doc.
End Final.
