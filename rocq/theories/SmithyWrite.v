(** Which models can be written as Smithy documents, and the names and references in them. *)
From Verif Require Import GoStr Outcome Value Schema Misc MiscFacts Model SpecModel ModelFacts SpecPV PVFacts SpecMisc SpecGen OpenApi SpecOpenApi
  OpenApiFacts SpecImport Smithy SmithyFacts SmithyAst SpecSmithy.

(** ** Names *)
Lemma cap_eq s : identifier s -> capitalize s = cap s.
Proof.
  intros (c & r & -> & Hl & _). assert (H7 : ascii7 c) by (unfold letter, lower_letter, upper_letter, ascii7 in *; lia).
  destruct (capitalize_spec c r H7) as (d & -> & P1 & P2). unfold cap.
  destruct ((97 <=? nat_of_ascii c) && (nat_of_ascii c <=? 122)) eqn:E.
  - apply andb_true_iff in E. destruct E as [A B]. apply Nat.leb_le in A, B. destruct (P1 (conj A B)) as (_ & _ & Q).
    rewrite Q. replace (nat_of_ascii d + 32 - 32) with (nat_of_ascii d) by lia. rewrite ascii_nat_embedding. reflexivity.
  - rewrite P2; [reflexivity|]. intros [A B]. apply Nat.leb_le in A, B. rewrite A, B in E. discriminate.
Qed.
Lemma uncap_eq s : identifier s -> uncapitalize s = uncap s.
Proof.
  intros (c & r & -> & Hl & _). assert (H7 : ascii7 c) by (unfold letter, lower_letter, upper_letter, ascii7 in *; lia).
  destruct (uncapitalize_spec c r H7) as (d & -> & P1 & P2). unfold uncap.
  destruct ((65 <=? nat_of_ascii c) && (nat_of_ascii c <=? 90)) eqn:E.
  - apply andb_true_iff in E. destruct E as [A B]. apply Nat.leb_le in A, B. destruct (P1 (conj A B)) as (_ & _ & Q).
    rewrite <- Q, ascii_nat_embedding. reflexivity.
  - rewrite P2; [reflexivity|]. intros [A B]. apply Nat.leb_le in A, B. rewrite A, B in E. discriminate.
Qed.
Lemma cap_identifier s : identifier s -> identifier (cap s).
Proof. intros H. rewrite <- cap_eq by exact H. apply capitalize_identifier. exact H. Qed.
Lemma identifier_cons s : identifier s -> s <> "".
Proof. intros (c & r & -> & _). discriminate. Qed.
Lemma identifier_no_hash s : identifier s -> no_hash s.
Proof.
  intros (c & r & -> & Hl & Hr) (a & b & E). destruct a as [|x a]; simpl in E; injection E as E1 E2.
  - subst c. destruct Hl as [[A B]|[A B]]; vm_compute in A, B; lia.
  - destruct (Hr "#"%char (ex_intro _ a (ex_intro _ b E2))) as [[[A B]|[A B]]|[[A B]|A]]; try (vm_compute in A, B; lia). discriminate.
Qed.
Lemma no_hash_app a b : no_hash a -> no_hash b -> no_hash (a +++ b).
Proof. unfold no_hash. rewrite !no_char_smem. intros H1 H2. rewrite smem_app, H1, H2. reflexivity. Qed.

(** ** Maps *)
Lemma get_put {A} k k' (v : A) l : get k (put k' v l) = if k =?s k' then Some v else get k l.
Proof.
  induction l as [|[n w] l IH]; simpl; [reflexivity|]. destruct (k' =?s n) eqn:E; simpl.
  - apply seqb_eq in E. subst n. destruct (k =?s k'); reflexivity.
  - rewrite IH. destruct (k =?s n) eqn:F; [|reflexivity]. apply seqb_eq in F. subst n. destruct (k =?s k') eqn:G; [|reflexivity].
    apply seqb_eq in G. subst k'. rewrite seqb_refl in E. discriminate.
Qed.
Lemma get_Some_In {A} k (v : A) l : get k l = Some v -> In (k, v) l.
Proof.
  induction l as [|[n w] l IH]; simpl; [discriminate|]. destruct (k =?s n) eqn:E; [|auto]. apply seqb_eq in E. subst n.
  intros X. injection X as <-. left. reflexivity.
Qed.
Lemma get_key {A} k (l : list (string * A)) : (exists v, get k l = Some v) <-> In k (map fst l).
Proof.
  destruct (get k l) as [v|] eqn:E.
  - split; [|intros _; exists v; reflexivity]. intros _. apply get_Some_In in E. apply (in_map fst) in E. exact E.
  - apply get_None in E. split; [intros (v & X); discriminate|contradiction].
Qed.
Lemma put_In_sub {A} k (v : A) l n w : In (n, w) (put k v l) -> (n = k /\ w = v) \/ In (n, w) l.
Proof.
  induction l as [|[k' v'] l IH]; simpl; [intros [X|[]]; injection X as <- <-; auto|]. destruct (k =?s k') eqn:E; simpl.
  - apply seqb_eq in E. subst k'. intros [X|X]; [injection X as <- <-; auto|auto].
  - intros [X|X]; [auto|]. destruct (IH X); auto.
Qed.
Lemma put_all_In {A B} (name : A -> string) (f : A -> B) l n w : In (n, w) (put_all name f l) -> exists x, In x l /\ n = name x /\ w = f x.
Proof.
  unfold put_all. assert (G : forall acc, In (n, w) (fold_left (fun acc x => put (name x) (f x) acc) l acc) -> In (n, w) acc \/ exists x, In x l /\ n = name x /\ w = f x).
  { induction l as [|x l IH]; simpl; [auto|]. intros acc H. destruct (IH _ H) as [I|(y & I & Q)]; [|right; exists y; auto].
    apply put_In_sub in I. destruct I as [[-> ->]|I]; [right; exists x; auto|auto]. }
  intros H. destruct (G [] H) as [[]|R]. exact R.
Qed.
Lemma put_all_map {A B} (name : A -> string) (f : A -> B) l : NoDup (map name l) -> put_all name f l = map (fun x => (name x, f x)) l.
Proof.
  unfold put_all. assert (G : forall acc, NoDup (map fst acc ++ map name l) -> fold_left (fun acc x => put (name x) (f x) acc) l acc = acc ++ map (fun x => (name x, f x)) l).
  { induction l as [|x l IH]; simpl; intros acc H; [rewrite app_nil_r; reflexivity|].
    assert (N : ~ In (name x) (map fst acc)). { apply NoDup_remove_2 in H. intros I. apply H. apply in_app_iff. auto. }
    rewrite put_fresh by exact N. rewrite IH; [rewrite <- app_assoc; reflexivity|]. rewrite map_app, <- app_assoc. exact H. }
  intros H. apply (G []). exact H.
Qed.

Section Written.
Context (ns insuf outsuf : string).
Notation id_of := (id_of ns).
Lemma id_inj a b : id_of a = id_of b -> a = b.
Proof. unfold SmithyAst.id_of. intros H. apply append_inj_l in H. injection H as H. exact H. Qed.

(** ** Types *)
Lemma kind_shape ts a : In (ts_type ts) smithy_kinds <-> exists s, shape_of_type ns ts a = Ok s.
Proof.
  split.
  - intros I. unfold shape_of_type. destruct ts as [t]. cbn [ts_type] in *. cbn in I.
    repeat (destruct I as [<-|I]; [eexists; reflexivity|]). destruct I.
  - intros (s & H). unfold shape_of_type in H. destruct (str_mem (ts_type ts) number_types) eqn:E.
    { apply str_mem_In in E. unfold smithy_kinds. apply in_app_iff. left. exact E. }
    repeat match type of H with (if ?b then _ else _) = _ => destruct b eqn:?E1; [apply seqb_eq in E1; rewrite E1; simpl; tauto|clear E1] end.
    discriminate.
Qed.
Local Opaque smithy_kinds.
Lemma typedef_shape_iff td : (exists s, typedef_shape ns td = Ok s) <-> In (ts_type (td_spec td)) smithy_kinds.
Proof.
  rewrite (kind_shape (td_spec td) (td_annos td)). unfold typedef_shape. destruct (shape_of_type ns (td_spec td) (td_annos td)); simpl;
    split; intros (s & H); try discriminate; eexists; reflexivity.
Qed.
Lemma write_types_iff tds : forall acc, (exists acc', write_types ns tds acc = Ok acc') <-> forall td, In td tds -> In (ts_type (td_spec td)) smithy_kinds.
Proof.
  induction tds as [|td tds IH]; simpl; intros acc; [split; [tauto|intros _; eexists; reflexivity]|].
  destruct (typedef_shape ns td) as [s| | |] eqn:E; simpl.
  - rewrite IH. split; [|auto]. intros H d [<-|I]; [apply typedef_shape_iff; exists s; exact E|auto].
  - split; [intros (x & X); discriminate|]. intros H. specialize (H td (or_introl eq_refl)). apply typedef_shape_iff in H. destruct H as (s & H). congruence.
  - split; [intros (x & X); discriminate|]. intros H. specialize (H td (or_introl eq_refl)). apply typedef_shape_iff in H. destruct H as (s & H). congruence.
  - split; [intros (x & X); discriminate|]. intros H. specialize (H td (or_introl eq_refl)). apply typedef_shape_iff in H. destruct H as (s & H). congruence.
Qed.
Lemma write_types_keys tds : forall acc acc', write_types ns tds acc = Ok acc' ->
  forall k, In k (map fst acc') <-> In k (map fst acc) \/ exists td, In td tds /\ k = id_of (td_name td).
Proof.
  induction tds as [|td tds IH]; simpl; intros acc acc' H k.
  - injection H as <-. split; [auto|]. intros [X|(td & [] & _)]. exact X.
  - apply rbind_Ok in H. destruct H as (s & E & H). rewrite (IH _ _ H), put_keys. split.
    + intros [[->|X]|(d & I & ->)]; [right; exists td; auto|auto|right; exists d; auto].
    + intros [X|(d & [<-|I] & ->)]; [auto|auto|right; exists d; auto].
Qed.

(** ** Exceptions *)
Lemma write_errors_iff xs : forall acc, (exists acc', write_errors ns xs acc = Ok acc') <-> forall x, In x xs -> In (id_of (xc_type x)) (map fst acc).
Proof.
  induction xs as [|x xs IH]; simpl; intros acc; [split; [tauto|intros _; eexists; reflexivity]|].
  destruct (get (id_of (xc_type x)) acc) as [s|] eqn:E.
  - assert (I : In (id_of (xc_type x)) (map fst acc)) by (apply get_key; exists s; exact E). rewrite IH. split.
    + intros H y [<-|J]; [exact I|]. specialize (H y J). rewrite put_keys in H. destruct H as [->|H]; assumption.
    + intros H y J. rewrite put_keys. right. apply H. auto.
  - apply get_None in E. split; [intros (a & X); discriminate|]. intros H. elim E. apply H. auto.
Qed.
Lemma write_errors_keys xs : forall acc acc', write_errors ns xs acc = Ok acc' -> forall k, In k (map fst acc') <-> In k (map fst acc).
Proof.
  induction xs as [|x xs IH]; simpl; intros acc acc' H k; [injection H as <-; tauto|].
  destruct (get (id_of (xc_type x)) acc) as [s|] eqn:E; [|discriminate].
  assert (I : In (id_of (xc_type x)) (map fst acc)) by (apply get_key; exists s; exact E). rewrite (IH _ _ H), put_keys.
  split; [intros [->|X]; assumption|auto].
Qed.

(** ** Actions *)
Lemma split_eq_iff i : (exists k v r, split "=" i = k :: v :: r) <-> has_char "=" i.
Proof.
  split.
  - intros (k & v & r & E). rewrite <- (join_split "=" i), E. exists k, (join "=" (v :: r)). destruct r; reflexivity.
  - intros (a & b & ->). assert (G : forall x, exists k v r, split "=" (x +++ String "=" b) = k :: v :: r).
    { induction x as [|c x IH]; simpl.
      - destruct (split "=" b) as [|y ys] eqn:E; [elim (split_nonempty _ _ E)|]. exists "", y, ys. reflexivity.
      - destruct IH as (k & v & r & ->). destruct (Ascii.eqb c "="); [exists "", k, (v :: r)|exists (String c k), v, r]; reflexivity. }
    apply G.
Qed.
Lemma paginated_items_iff l : forall acc, (exists t, paginated_items l acc = Ok t) <-> forall i, In i l -> has_char "=" i.
Proof.
  induction l as [|i l IH]; simpl; intros acc; [split; [tauto|intros _; eexists; reflexivity]|].
  destruct (split "=" i) as [|k [|v r]] eqn:E.
  - elim (split_nonempty _ _ E).
  - split; [intros (t & X); discriminate|]. intros H. specialize (H i (or_introl eq_refl)). apply split_eq_iff in H.
    destruct H as (k' & v & r & H). congruence.
  - rewrite IH. split; [|auto]. intros H j [<-|I]; [apply split_eq_iff; exists k, v, r; exact E|auto].
Qed.
Lemma paginated_iff s : (exists t, paginated_trait s = Ok t) <-> settings s.
Proof.
  unfold paginated_trait. transitivity (exists t, paginated_items (split "," s) [] = Ok t).
  { destruct (paginated_items (split "," s) []); simpl; split; intros (t & H); try discriminate; eexists; reflexivity. }
  rewrite paginated_items_iff. unfold settings. split.
  - intros H. exists (split "," s). split; [symmetry; apply (join_split ",")|]. split; [apply split_nonempty|].
    intros i I. split; [apply no_char_smem; apply (split_no_sep _ _ _ I)|apply H; exact I].
  - intros (l & -> & N & H). change "," with (String "," ""). rewrite split_join; [intros i I; apply H; exact I|exact N|].
    intros x I. apply no_char_smem. apply H. exact I.
Qed.
Lemma action_traits_iff base h : NoDup (map fst (h_annos h)) ->
  (exists t, action_traits base h = Ok t) <-> forall v, In ("x_paginated", v) (h_annos h) -> settings v.
Proof.
  intros D. unfold action_traits. destruct (get "x_paginated" (h_annos h)) as [v|] eqn:E.
  - apply (get_In _ _ _ D) in E. transitivity (settings v).
    + rewrite <- paginated_iff. destruct (paginated_trait v); simpl; split; intros (t & H); try discriminate; eexists; reflexivity.
    + split; [|auto]. intros H w I. apply (get_In _ _ _ D) in I, E. congruence.
  - simpl. split; [|intros _; eexists; reflexivity]. intros _ v I. apply (get_In _ _ _ D) in I. congruence.
Qed.
Lemma shape_name_eq h : identifier (h_name h) -> action_shape_name h = cap (h_name h).
Proof.
  intros H. unfold action_shape_name. rewrite cap_eq by exact H.
  destruct (cap (h_name h) =?s "") eqn:E; [|reflexivity]. apply seqb_eq in E. elim (identifier_cons _ (cap_identifier _ H) E).
Qed.
Definition io_put {A B} (name : string) (ins : list A) (outs : list B) si so (acc : list (string * shape)) : list (string * shape) :=
  let acc := match ins with [] => acc | _ => put (id_of (name +++ insuf)) si acc end in
  match outs with [] => acc | _ => put (id_of (name +++ outsuf)) so acc end.
Lemma io_put_keys {A B} name (ins : list A) (outs : list B) si so acc k :
  In k (map fst (io_put (cap name) ins outs si so acc)) <-> In k (map fst acc) \/ exists n, In n (io_names insuf outsuf name ins outs) /\ k = id_of n.
Proof.
  unfold io_put, io_names. destruct ins, outs; rewrite ?put_keys; simpl;
    (split; [intros H; repeat match goal with H : _ \/ _ |- _ => destruct H end; subst; eauto 6|
             intros [H|(n & H & ->)]; [auto|repeat match goal with H : _ \/ _ |- _ => destruct H end; subst; tauto]]).
Qed.
Lemma write_action_eq base h acc : identifier (h_name h) ->
  write_action ns insuf outsuf base h acc =
  (t <- action_traits base h ;;
   match h_expected h with
   | None => Panic
   | Some e =>
       acc <- write_errors ns (h_exceptions h)
                (io_put (cap (h_name h)) (h_inputs h) (xp_outputs e)
                   (params_shape [("smithy.api#input", TBool true)] (input_member ns) (h_inputs h))
                   (params_shape [("smithy.api#output", TBool true)] (output_member ns) (xp_outputs e)) acc) ;;
       Ok (put (id_of (cap (h_name h)))
             (mkShape "operation" "" t [] None None None
                (match h_inputs h with [] => None | _ => Some (id_of (cap (h_name h) +++ insuf)) end)
                (match xp_outputs e with [] => None | _ => Some (id_of (cap (h_name h) +++ outsuf)) end)
                (map (fun x => id_of (xc_type x)) (h_exceptions h)) []) acc)
   end).
Proof.
  intros H. unfold write_action. rewrite (shape_name_eq h H). destruct (action_traits base h); simpl; try reflexivity.
  destruct (h_expected h) as [e|]; [|reflexivity]. unfold io_put. destruct (h_inputs h), (xp_outputs e); reflexivity.
Qed.
Lemma write_action_iff base h acc : identifier (h_name h) -> NoDup (map fst (h_annos h)) ->
  (exists acc', write_action ns insuf outsuf base h acc = Ok acc') <->
  (forall v, In ("x_paginated", v) (h_annos h) -> settings v) /\ h_expected h <> None
  /\ forall x, In x (h_exceptions h) -> In (id_of (xc_type x)) (map fst acc) \/ In (xc_type x) (io_names insuf outsuf (h_name h) (h_inputs h) (outputs_of h)).
Proof.
  intros H D. rewrite (write_action_eq _ _ _ H), <- (action_traits_iff base h D).
  destruct (action_traits base h) as [t| | |]; simpl; try (split; [intros (a & X); discriminate|intros ((a & X) & _); discriminate]).
  unfold outputs_of. destruct (h_expected h) as [e|]; [|split; [intros (a & X); discriminate|intros (_ & X & _); congruence]].
  match goal with |- context [write_errors ns (h_exceptions h) ?a] => set (ac := a) end.
  transitivity (exists acc', write_errors ns (h_exceptions h) ac = Ok acc').
  { destruct (write_errors ns (h_exceptions h) ac); simpl; split; intros (x & X); try discriminate; eexists; reflexivity. }
  rewrite write_errors_iff. split.
  - intros X. split; [eexists; reflexivity|]. split; [discriminate|]. intros x I. specialize (X x I). apply io_put_keys in X.
    destruct X as [X|(n & J & E)]; [auto|]. apply id_inj in E. subst n. auto.
  - intros (_ & _ & X) x I. apply io_put_keys. destruct (X x I) as [J|J]; [auto|]. right. eexists. split; [exact J|reflexivity].
Qed.
Lemma write_action_keys base h acc acc' : identifier (h_name h) -> write_action ns insuf outsuf base h acc = Ok acc' ->
  forall k, In k (map fst acc') <-> In k (map fst acc) \/ exists n, In n (action_names insuf outsuf h) /\ k = id_of n.
Proof.
  intros H E k. rewrite (write_action_eq _ _ _ H) in E. apply rbind_Ok in E. destruct E as (t & _ & E).
  unfold action_names, outputs_of. destruct (h_expected h) as [e|]; [|discriminate]. apply rbind_Ok in E. destruct E as (a & E & F). injection F as <-.
  rewrite put_keys, (write_errors_keys _ _ _ E), io_put_keys. split.
  - intros [->|[X|(n & I & ->)]]; [right|auto|right]; eexists; (split; [|reflexivity]); apply in_app_iff; simpl; auto.
  - intros [X|(n & I & ->)]; [auto|]. apply in_app_iff in I. destruct I as [I|[<-|[]]]; [right; right; exists n; auto|auto].
Qed.
Lemma write_actions_iff base hs : (forall h, In h hs -> identifier (h_name h) /\ NoDup (map fst (h_annos h))) -> forall acc,
  (exists acc', write_actions ns insuf outsuf base hs acc = Ok acc') <->
  (forall h v, In h hs -> In ("x_paginated", v) (h_annos h) -> settings v) /\ (forall h, In h hs -> h_expected h <> None)
  /\ forall pre h post x, hs = pre ++ h :: post -> In x (h_exceptions h) ->
       In (id_of (xc_type x)) (map fst acc) \/ (exists h', In h' pre /\ In (xc_type x) (action_names insuf outsuf h'))
       \/ In (xc_type x) (io_names insuf outsuf (h_name h) (h_inputs h) (outputs_of h)).
Proof.
  induction hs as [|h hs IH]; intros W acc; cbn [write_actions].
  - split; [|intros _; eexists; reflexivity]. intros _. repeat split; try (intros; contradiction). intros pre h post x E. destruct pre; discriminate.
  - destruct (W h (or_introl eq_refl)) as [Hi Hd]. pose proof (write_action_iff base h acc Hi Hd) as A.
    destruct (write_action ns insuf outsuf base h acc) as [acc1| | |] eqn:E; simpl;
      [|split; [intros (a & X); discriminate|]; intros (P1 & P2 & P3); exfalso;
        assert (B : exists a, @Ok unit (list (string * shape)) acc = Ok a) by (eexists; reflexivity); clear B;
        match type of A with (exists a, ?r = Ok a) <-> _ => assert (Q : exists a, r = Ok a) end;
        [apply A; split; [intros v I; exact (P1 h v (or_introl eq_refl) I)|]; split; [exact (P2 h (or_introl eq_refl))|];
         intros x I; destruct (P3 [] h hs x eq_refl I) as [J|[(h' & [] & _)|J]]; auto|destruct Q as (a & Q); discriminate] ..].
    assert (W' : forall x, In x hs -> identifier (h_name x) /\ NoDup (map fst (h_annos x))) by (intros; apply W; simpl; auto).
    rewrite (IH W' acc1). assert (A1 : exists a, @Ok unit _ acc1 = Ok a) by (eexists; reflexivity). apply A in A1. destruct A1 as (Q1 & Q2 & Q3).
    pose proof (write_action_keys _ _ _ _ Hi E) as K. split.
    + intros (P1 & P2 & P3). split; [intros g v [<-|I]; [apply Q1|apply P1; exact I]|]. split; [intros g [<-|I]; [exact Q2|apply P2; exact I]|].
      intros pre g post x S I. destruct pre as [|p pre]; simpl in S; injection S as -> S.
      * subst hs. destruct (Q3 x I); auto.
      * destruct (P3 pre g post x S I) as [J|[(h' & J & N)|J]]; [|right; left; exists h'; simpl; auto|auto].
        apply K in J. destruct J as [J|(n & J & X)]; [auto|]. apply id_inj in X. subst n. right. left. exists p. simpl. auto.
    + intros (P1 & P2 & P3). split; [intros; eapply P1; simpl; eauto|]. split; [intros; apply P2; simpl; auto|].
      intros pre g post x S I. subst hs. destruct (P3 (h :: pre) g post x eq_refl I) as [J|[(h' & [<-|J] & N)|J]].
      * left. apply K. auto.
      * left. apply K. right. eexists. split; [exact N|reflexivity].
      * right. left. exists h'. auto.
      * auto.
Qed.
Lemma write_actions_keys base hs : (forall h, In h hs -> identifier (h_name h)) -> forall acc acc', write_actions ns insuf outsuf base hs acc = Ok acc' ->
  forall k, In k (map fst acc') <-> In k (map fst acc) \/ exists n, In n (flat_map (action_names insuf outsuf) hs) /\ k = id_of n.
Proof.
  induction hs as [|h hs IH]; intros W acc acc' H k; cbn [write_actions flat_map] in *.
  - injection H as <-. split; [auto|]. intros [X|(n & [] & _)]. exact X.
  - apply rbind_Ok in H. destruct H as (a & E & H). rewrite (IH (fun x I => W x (or_intror I)) _ _ H), (write_action_keys _ _ _ _ (W h (or_introl eq_refl)) E).
    split.
    + intros [[X|(n & I & ->)]|(n & I & ->)]; [auto|right|right]; exists n; (split; [apply in_app_iff; auto|reflexivity]).
    + intros [X|(n & I & ->)]; [auto|]. apply in_app_iff in I. destruct I as [I|I]; [left; right|right]; exists n; auto.
Qed.

(** ** Examples *)
Lemma example_map_iff v : (exists t, example_map v = Ok t) <-> exists l, v = VMap l.
Proof. destruct v; simpl; split; intros (x & X); try discriminate; eexists; reflexivity. Qed.
Lemma request_examples_iff req exs : forall acc, (exists l, request_examples req exs acc = Ok l) <->
  forall ex, In ex exs -> ex_target ex = req -> object_example ex.
Proof.
  induction exs as [|ex exs IH]; simpl; intros acc; [split; [tauto|intros _; eexists; reflexivity]|].
  destruct (ex_target ex =?s req) eqn:E.
  - apply seqb_eq in E. pose proof (example_map_iff (ex_example ex)) as M. destruct (example_map (ex_example ex)) as [v| | |]; simpl.
    + rewrite IH. split; [|auto]. intros H x [<-|I] T; [apply M; eexists; reflexivity|auto].
    + split; [intros (l & X); discriminate|]. intros H. destruct (proj2 M (H ex (or_introl eq_refl) E)) as (v & X). discriminate.
    + split; [intros (l & X); discriminate|]. intros H. destruct (proj2 M (H ex (or_introl eq_refl) E)) as (v & X). discriminate.
    + split; [intros (l & X); discriminate|]. intros H. destruct (proj2 M (H ex (or_introl eq_refl) E)) as (v & X). discriminate.
  - apply seqb_neq in E. rewrite IH. split; [|auto]. intros H x [<-|I] T; [contradiction|auto].
Qed.
Lemma request_examples_keys req exs : forall acc l, request_examples req exs acc = Ok l ->
  forall n, In n (map fst l) <-> In n (map fst acc) \/ exists ex, In ex exs /\ ex_target ex = req /\ ex_name ex = n.
Proof.
  induction exs as [|ex exs IH]; simpl; intros acc l H n; [injection H as <-; split; [auto|intros [X|(x & [] & _)]; exact X]|].
  destruct (ex_target ex =?s req) eqn:E.
  - apply seqb_eq in E. apply rbind_Ok in H. destruct H as (v & _ & H). rewrite (IH _ _ H), put_keys. split.
    + intros [[->|X]|(x & I & T & <-)]; [right; exists ex; auto|auto|right; exists x; auto].
    + intros [X|(x & [<-|I] & T & <-)]; [auto|auto|right; exists x; auto].
  - apply seqb_neq in E. rewrite (IH _ _ H). split; [intros [X|(x & I & T)]; [auto|right; exists x; tauto]|].
    intros [X|(x & [<-|I] & T & N)]; [auto|contradiction|right; exists x; auto].
Qed.
Lemma response_examples_iff req res xs exs : forall acc, (exists l, response_examples req res xs exs acc = Ok l) <->
  forall ex, In ex exs -> ex_target ex <> req -> In (ex_name ex) (map fst acc) -> ex_target ex = res \/ In (ex_target ex) (map xc_type xs) -> object_example ex.
Proof.
  induction exs as [|ex exs IH]; simpl; intros acc; [split; [tauto|intros _; eexists; reflexivity]|].
  destruct (ex_target ex =?s req) eqn:E.
  { apply seqb_eq in E. rewrite IH. split; [|auto]. intros H x [<-|I] T; [contradiction|auto]. }
  apply seqb_neq in E. destruct (get (ex_name ex) acc) as [d|] eqn:G.
  2:{ apply get_None in G. rewrite IH. split; [|auto]. intros H x [<-|I] T; [intros N; contradiction|auto]. }
  assert (I0 : In (ex_name ex) (map fst acc)) by (apply get_key; exists d; exact G).
  assert (K : forall d' x, In x (map fst (put (ex_name ex) d' acc)) <-> In x (map fst acc)).
  { intros d' x. rewrite put_keys. split; [intros [->|X]; assumption|auto]. }
  pose proof (example_map_iff (ex_example ex)) as M.
  assert (STEP : forall f, (ex_target ex = res \/ In (ex_target ex) (map xc_type xs)) ->
     ((exists l, (v <- example_map (ex_example ex) ;; response_examples req res xs exs (put (ex_name ex) (f v) acc)) = Ok l) <->
      (forall x, ex = x \/ In x exs -> ex_target x <> req -> In (ex_name x) (map fst acc) -> ex_target x = res \/ In (ex_target x) (map xc_type xs) -> object_example x))).
  { intros f C. destruct (example_map (ex_example ex)) as [v| | |]; simpl.
    - rewrite IH. split.
      + intros H x [<-|I] T N R; [apply M; eexists; reflexivity|]. apply H; auto. apply K. exact N.
      + intros H x I T N R. apply H; auto. apply K in N. exact N.
    - split; [intros (l & X); discriminate|]. intros H. destruct (proj2 M (H ex (or_introl eq_refl) E I0 C)) as (v & X). discriminate.
    - split; [intros (l & X); discriminate|]. intros H. destruct (proj2 M (H ex (or_introl eq_refl) E I0 C)) as (v & X). discriminate.
    - split; [intros (l & X); discriminate|]. intros H. destruct (proj2 M (H ex (or_introl eq_refl) E I0 C)) as (v & X). discriminate. }
  destruct (ex_target ex =?s res) eqn:F.
  - apply seqb_eq in F. apply (STEP (fun v => put "output" v d)). auto.
  - apply seqb_neq in F. destruct (str_mem (ex_target ex) (map xc_type xs)) eqn:S.
    + apply str_mem_In in S. apply (STEP (fun v => put "error" (TObj [("error", v); ("shapeId", TStr (ex_target ex))]) d)). auto.
    + rewrite IH. split; [|auto]. intros H x [<-|I] T N [R|R]; [contradiction| |auto|auto].
      exfalso. assert (X : str_mem (ex_target ex) (map xc_type xs) = true) by (apply str_mem_In; exact R). congruence.
Qed.
Lemma action_examples_iff sch h : identifier (h_name h) -> (exists l, action_examples (sc_examples sch) h = Ok l) <->
  forall ex, In ex (sc_examples sch) -> request_of h ex \/ answer_of sch h ex -> object_example ex.
Proof.
  intros H. unfold action_examples. rewrite (cap_eq _ H).
  pose proof (request_examples_iff (cap (h_name h) +++ "Request") (sc_examples sch) []) as A.
  pose proof (request_examples_keys (cap (h_name h) +++ "Request") (sc_examples sch) []) as K.
  destruct (request_examples (cap (h_name h) +++ "Request") (sc_examples sch) []) as [l| | |]; simpl.
  2-4: split; [intros (x & X); discriminate|]; intros Q; assert (B : forall ex, In ex (sc_examples sch) -> ex_target ex = cap (h_name h) +++ "Request" -> object_example ex)
    by (intros ex I T; apply Q; [exact I|left; exact T]); apply A in B; destruct B as (x & X); discriminate.
  specialize (K l eq_refl). assert (A1 : exists x, @Ok unit _ l = Ok x) by (eexists; reflexivity). rewrite A in A1.
  pose proof (response_examples_iff (cap (h_name h) +++ "Request") (cap (h_name h) +++ "Response") (h_exceptions h) (sc_examples sch) l) as B.
  match goal with |- context [rbind ?r _] => transitivity (exists l', r = Ok l') end.
  { match goal with |- context [rbind ?r _] => destruct r end; simpl; split; intros (x & X); try discriminate; eexists; reflexivity. }
  rewrite B. clear A B. split.
  - intros Q ex I [T|((rq & J & R & N) & T)]; [apply A1; [exact I|exact T]|].
    destruct (ex_target ex =?s (cap (h_name h) +++ "Request")) eqn:E; [apply seqb_eq in E; apply A1; assumption|]. apply seqb_neq in E.
    apply Q; [exact I|exact E| |].
    + apply K. right. exists rq. split; [exact J|]. split; [exact R|exact N].
    + destruct T as [T|(x & X & T)]; [left; exact T|right]. rewrite <- T. apply in_map. exact X.
  - intros Q ex I T N R. apply Q; [exact I|]. right. split.
    + apply K in N. destruct N as [[]|(rq & J & R' & N)]. exists rq. auto.
    + destruct R as [R|R]; [auto|right]. apply in_map_iff in R. destruct R as (x & X & J). exists x. auto.
Qed.
Lemma write_examples_iff exs hs : forall acc, (exists acc', write_examples ns exs hs acc = Ok acc') <-> forall h, In h hs -> exists l, action_examples exs h = Ok l.
Proof.
  induction hs as [|h hs IH]; simpl; intros acc; [split; [tauto|intros _; eexists; reflexivity]|].
  destruct (action_examples exs h) as [l| | |] eqn:E; simpl;
    [|split; [intros (a & X); discriminate|]; intros Q; destruct (Q h (or_introl eq_refl)) as (l & X); congruence ..].
  rewrite IH. split; [|auto]. intros Q g [<-|I]; [exists l; exact E|auto].
Qed.
Lemma write_examples_keys exs hs : forall acc acc', write_examples ns exs hs acc = Ok acc' -> forall k, In k (map fst acc') <-> In k (map fst acc).
Proof.
  induction hs as [|h hs IH]; simpl; intros acc acc' H k; [injection H as <-; tauto|]. apply rbind_Ok in H. destruct H as (l & _ & H). rewrite (IH _ _ H).
  destruct (get (id_of (capitalize (h_name h))) acc) as [s|] eqn:G; [|tauto]. destruct l; [tauto|]. rewrite put_keys.
  assert (I : In (id_of (capitalize (h_name h))) (map fst acc)) by (apply get_key; exists s; exact G). split; [intros [->|X]; assumption|auto].
Qed.

(** ** Exporting *)
Lemma exportable_iff sch : plain_names sch -> annos_once sch ->
  (exists a, smithy_export ns insuf outsuf sch = Ok a) <-> smithy_exportable insuf outsuf sch.
Proof.
  intros (PT & PH & PO & _) (AH & _ & _). unfold smithy_export, smithy_exportable.
  pose proof (write_types_iff (sc_types sch) []) as T. destruct (write_types ns (sc_types sch) []) as [acc| | |] eqn:ET; simpl.
  2-4: split; [intros (a & X); discriminate|]; intros (Q & _); apply T in Q; destruct Q as (a & X); discriminate.
  pose proof (write_types_keys _ _ _ ET) as KT.
  assert (T1 : exists a, @Ok unit _ acc = Ok a) by (eexists; reflexivity). rewrite T in T1. clear T.
  assert (W : forall h, In h (sc_http sch) -> identifier (h_name h) /\ NoDup (map fst (h_annos h))) by (intros h I; split; [apply PH; exact I|apply AH; exact I]).
  pose proof (write_actions_iff (sc_base sch) (sc_http sch) W acc) as A.
  assert (KK : forall n, In (id_of n) (map fst acc) <-> exists td, In td (sc_types sch) /\ td_name td = n).
  { intros n. rewrite KT. split; [intros [[]|(td & I & E)]; apply id_inj in E; exists td; auto|]. intros (td & I & <-). right. exists td. auto. }
  destruct (write_actions ns insuf outsuf (sc_base sch) (sc_http sch) acc) as [acc1| | |]; simpl.
  2-4: split; [intros (a & X); discriminate|]; intros (_ & Q2 & Q3 & Q4 & _); exfalso;
    match type of A with (exists a, ?r = Ok a) <-> _ => assert (Q : exists a, r = Ok a) end;
    [apply A; split; [exact Q3|split; [exact Q2|]]; intros pre h post x E I; rewrite KK; apply (Q4 pre h post x E I)|destruct Q as (a & X); discriminate].
  assert (A1 : exists a, @Ok unit _ acc1 = Ok a) by (eexists; reflexivity). rewrite A in A1. clear A. destruct A1 as (Q1 & Q2 & Q3).
  match goal with |- context [write_service ns sch ?x] => set (ac := write_service ns sch x) end.
  assert (X : (exists a, match sc_examples sch with [] => Ok ac | exs => write_examples ns exs (sc_http sch) ac end = Ok a)
              <-> forall h ex, In h (sc_http sch) -> In ex (sc_examples sch) -> request_of h ex \/ answer_of sch h ex -> object_example ex).
  { transitivity (exists a, write_examples ns (sc_examples sch) (sc_http sch) ac = Ok a).
    - destruct (sc_examples sch) as [|e l] eqn:EE; [|tauto]. split; [|intros _; eexists; reflexivity]. intros _.
      apply write_examples_iff. intros h _. eexists. reflexivity.
    - rewrite write_examples_iff. split.
      + intros Z h ex I. apply (action_examples_iff sch h (PH h I)). apply Z. exact I.
      + intros Z h I. apply (action_examples_iff sch h (PH h I)). intros ex J R. exact (Z h ex I J R). }
  split.
  - intros (a & E). apply rbind_Ok in E. destruct E as (b & E & _). split; [exact T1|]. split; [exact Q2|]. split; [exact Q1|]. split.
    + intros pre h post x S I. unfold shape_before. rewrite <- KK. apply (Q3 pre h post x S I).
    + apply X. exists b. exact E.
  - intros (_ & _ & _ & _ & Q). apply X in Q. destruct Q as (b & E). destruct (sc_examples sch); rewrite E; eexists; reflexivity.
Qed.
End Written.
