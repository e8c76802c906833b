(** When the checks after reading return, and when they crash. *)
From Verif Require Import GoStr Outcome Value Schema Scalars Time Model ModelFacts Misc ParserValidate
  SpecTime SpecModel SpecMisc SpecPV ValidateFacts PVFacts.

Lemma each_panic {A E} (f : A -> result E unit) l : each f l = Panic -> exists x, In x l /\ f x = Panic.
Proof.
  induction l as [|x l IH]; cbn [each]; [discriminate|]. destruct (f x) as [[]|e| |] eqn:F; cbn; try discriminate.
  - intros H. destruct (IH H) as (y & Hy & Fy). exists y. simpl. auto.
  - intros _. exists x. simpl. auto.
Qed.
Lemma each_fuel {A E} (f : A -> result E unit) l : each f l = OutOfFuel -> exists x, In x l /\ f x = OutOfFuel.
Proof.
  induction l as [|x l IH]; cbn [each]; [discriminate|]. destruct (f x) as [[]|e| |] eqn:F; cbn; try discriminate.
  - intros H. destruct (IH H) as (y & Hy & Fy). exists y. simpl. auto.
  - intros _. exists x. simpl. auto.
Qed.
Lemma rbind_panic {E A B} (r : result E A) (f : A -> result E B) : rbind r f = Panic ->
  r = Panic \/ exists a, r = Ok a /\ f a = Panic.
Proof. destruct r; simpl; intros H; try discriminate; [right; eauto|left; reflexivity]. Qed.
Lemma rbind_fuel {E A B} (r : result E A) (f : A -> result E B) : rbind r f = OutOfFuel ->
  r = OutOfFuel \/ exists a, r = Ok a /\ f a = OutOfFuel.
Proof. destruct r; simpl; intros H; try discriminate; [right; eauto|left; reflexivity]. Qed.

Section C.
Variable X : ext.
Variable sch : schema.
Variable m : model.
Hypothesis Hm : new_model sch = Ok m.

Lemma need_case n : (exists td, need m n = Ok td) \/ exists e, need m n = Err e.
Proof. unfold need. destruct (find_type m n); eauto. Qed.
Ltac need_tac n := let td := fresh "td" in let e := fresh "e" in let N := fresh "N" in
  destruct (need_case n) as [[td N]|[e N]]; rewrite N; cbn [rbind]; try discriminate.
Lemma conforms_no_panic fuel ts v : conforms X m fuel ts v <> Panic.
Proof. unfold conforms. pose proof (no_panic X m fuel [] ts v). destruct (validate_spec _ _ _ _ _ _); congruence. Qed.
Lemma need_param_no n : need_param m n <> Panic /\ need_param m n <> OutOfFuel.
Proof. unfold need_param. destruct ((_ || _)%bool); [split; discriminate|]. need_tac n; split; discriminate. Qed.

Lemma typedef_no_panic fuel td : validate_typedef X m fuel td <> Panic.
Proof.
  unfold validate_typedef. repeat match goal with |- context[if ?b =?s ?s then _ else _] => destruct (b =?s s) end; try discriminate.
  - intros H. apply each_panic in H. destruct H as (f & _ & H). unfold validate_field in H. revert H. need_tac (ts_type (fd_spec f)).
    destruct (ts_type (fd_spec f) =?s "Array").
    { destruct (need_param_no (ts_items (fd_spec f))) as (N1 & N2). destruct (need_param m (ts_items (fd_spec f))); cbn [rbind]; try congruence.
      intros H. apply rbind_panic in H. destruct H as [H|(u & _ & H)].
      - destruct (fd_default f); try discriminate; destruct (fd_required f); try discriminate; exact (conforms_no_panic _ _ _ H).
      - destruct (_ && _)%bool; discriminate. }
    destruct (ts_type (fd_spec f) =?s "Map").
    { destruct (need_param_no (ts_items (fd_spec f))) as (N1 & N2). destruct (need_param_no (ts_keys (fd_spec f))) as (N3 & N4).
      destruct (need_param m (ts_keys (fd_spec f))); cbn [rbind]; try congruence.
      destruct (need_param m (ts_items (fd_spec f))); cbn [rbind]; try congruence.
      intros H. apply rbind_panic in H. destruct H as [H|(u & _ & H)].
      - destruct (fd_default f); try discriminate; destruct (fd_required f); try discriminate; exact (conforms_no_panic _ _ _ H).
      - destruct (_ && _)%bool; discriminate. }
    cbn [rbind]. intros H. apply rbind_panic in H. destruct H as [H|(u & _ & H)].
    + destruct (fd_default f); try discriminate; destruct (fd_required f); try discriminate; exact (conforms_no_panic _ _ _ H).
    + destruct (_ && _)%bool; discriminate.
  - unfold validate_array_def. destruct (_ =?s _); [discriminate|]. need_tac (ts_items (td_spec td)).
  - unfold validate_map_def. destruct (_ =?s _); [discriminate|]. need_tac (ts_items (td_spec td)).
    destruct (_ =?s _); [discriminate|]. need_tac (ts_keys (td_spec td)).
  - unfold validate_unit_def. need_tac (ts_value (td_spec td)). destruct (negb _); [discriminate|].
    need_tac (ts_unit (td_spec td)). destruct (str_mem _ _); discriminate.
  - unfold validate_string_def. destruct (_ && _)%bool; [discriminate|]. unfold validate_reference.
    destruct (_ =?s _); [discriminate|]. need_tac (ts_reference (td_spec td)).
  - unfold validate_reference. destruct (_ =?s _); [discriminate|]. need_tac (ts_reference (td_spec td)).
Qed.
Lemma params_example_no_panic fuel ps v : validate_params_example X m fuel ps v <> Panic.
Proof.
  unfold validate_params_example. destruct v; try discriminate. intros H. apply rbind_panic in H. destruct H as [H|(u & _ & H)].
  - apply each_panic in H. destruct H as (kv & _ & H). apply each_panic in H. destruct H as (p & _ & H).
    destruct (_ =?s _); [|discriminate]. revert H. need_tac (ts_type (fd_spec (ps_field p))). apply conforms_no_panic.
  - apply each_panic in H. destruct H as (p & _ & H). destruct (_ && _)%bool; discriminate.
Qed.
Lemma check_params_no body al l : forall cur, check_params m body al cur l <> Panic /\ check_params m body al cur l <> OutOfFuel.
Proof.
  induction l as [|p l IH]; intros cur; simpl; [split; discriminate|].
  need_tac (ts_type (fd_spec (ps_field p))); [|split; discriminate]. destruct (body p); [|apply IH].
  destruct al; [|split; discriminate]. destruct (negb _); [split; discriminate|apply IH].
Qed.
Lemma http_no h : validate_http m h <> Panic /\ validate_http m h <> OutOfFuel.
Proof.
  unfold validate_http. destruct (negb _); [split; discriminate|].
  match goal with |- context[check_params m ?b ?a ?c ?l] => destruct (check_params_no b a l c) as (A & B); destruct (check_params m b a c l) end;
    cbn [rbind]; try congruence; try (split; discriminate).
  destruct (h_expected h) as [x|]; [|split; discriminate].
  match goal with |- context[check_params m ?b ?a ?c ?l] => destruct (check_params_no b a l c) as (A' & B'); destruct (check_params m b a c l) end;
    cbn [rbind]; try congruence; try (split; discriminate).
  split; intros H; [apply each_panic in H|apply each_fuel in H]; destruct H as (e & _ & H); revert H; need_tac (xc_type e).
Qed.

Lemma example_panic fuel ex : validate_example X m fuel ex = Panic <-> nil_response sch ex.
Proof.
  unfold validate_example, nil_response. pose proof (example_spec_iff sch m Hm (ex_target ex)) as ES. split.
  - destruct (example_spec m (ex_target ex)) as [ts|]; [intros H; exfalso; exact (conforms_no_panic _ _ _ H)|].
    destruct (has_suffix "Request" (ex_target ex)) eqn:R.
    { destruct (find_http m _); [|discriminate]. intros H. exfalso. exact (params_example_no_panic _ _ _ H). }
    destruct (has_suffix "Response" (ex_target ex)) eqn:P; [|discriminate].
    destruct (find_http m (uncapitalize (drop_last 8 (ex_target ex)))) as [h|] eqn:F; [|discriminate].
    destruct (ex_example ex) as [| | | | | | | | | | | | |l] eqn:V; try discriminate.
    destruct (h_expected h) as [x|] eqn:EX; [intros H; exfalso; exact (params_example_no_panic _ _ _ H)|].
    intros _. split; [eauto|]. split; [intros ts Hts; apply ES in Hts; discriminate|]. split.
    + intros Hn. apply has_suffix_spec in Hn. congruence.
    + exists h. split; [|exact EX]. apply (find_action sch m Hm "Response" (ex_target ex) h P). exact F.
  - intros ((l & V) & NT & NR & h & NA & EX).
    destruct (example_spec m (ex_target ex)) as [ts|]; [exfalso; apply (NT ts); apply ES; reflexivity|].
    destruct (has_suffix "Request" (ex_target ex)) eqn:R; [exfalso; apply NR; now apply has_suffix_spec|].
    assert (P : has_suffix "Response" (ex_target ex) = true).
    { apply has_suffix_spec. destruct NA as (_ & n & E & _). eauto. }
    rewrite P. apply (find_action sch m Hm "Response" (ex_target ex) h P) in NA.
    change 8 with (String.length "Response"). rewrite NA, V, EX. reflexivity.
Qed.
Lemma parser_validate_panic fuel : parser_validate X m fuel = Panic -> exists ex, In ex (sc_examples sch) /\ nil_response sch ex.
Proof.
  unfold parser_validate. rewrite (schema_of_model sch m Hm). intros H.
  apply rbind_panic in H. destruct H as [H|(u & _ & H)].
  { apply each_panic in H. destruct H as (td & _ & H). exfalso. exact (typedef_no_panic _ _ H). }
  apply rbind_panic in H. destruct H as [H|(u' & _ & H)].
  - apply each_panic in H. destruct H as (ex & Hi & H). exists ex. split; [exact Hi|]. now apply example_panic in H.
  - apply each_panic in H. destruct H as (h & _ & H). exfalso. exact (proj1 (http_no h) H).
Qed.

(** ** Termination *)
Definition ends_spec (ts : typespec) : Prop := forall ts', leads sch ts ts' -> names_end sch ts'.
Lemma conforms_finishes ts v : ends_spec ts -> exists N, forall fuel, N <= fuel -> conforms X m fuel ts v <> OutOfFuel.
Proof.
  intros H. destruct (terminates X sch m Hm v ts H) as (N & HN). exists N. intros fuel Hf. unfold conforms.
  specialize (HN fuel [] Hf). destruct (validate_spec _ _ _ _ _ _); congruence.
Qed.
Lemma each_finishes {A} (f : nat -> A -> result pverror unit) l :
  (forall x, In x l -> exists N, forall fuel, N <= fuel -> f fuel x <> OutOfFuel) ->
  exists N, forall fuel, N <= fuel -> each (f fuel) l <> OutOfFuel.
Proof.
  intros H. destruct (eventually_all (fun x fuel => f fuel x <> OutOfFuel) l H) as (N & HN).
  exists N. intros fuel Hf HE. apply each_fuel in HE. destruct HE as (x & Hx & HE). exact (HN fuel Hf x Hx HE).
Qed.
Lemma field_finishes f : ends_spec (fd_spec f) ->
  exists N, forall fuel, N <= fuel -> validate_field X m fuel f <> OutOfFuel.
Proof.
  intros H. destruct (conforms_finishes (fd_spec f) (fd_default f) H) as (N & HN). exists N. intros fuel Hf HO.
  unfold validate_field in HO. revert HO. need_tac (ts_type (fd_spec f)). intros HO.
  apply rbind_fuel in HO. destruct HO as [HO|(u & _ & HO)].
  { destruct (_ =?s _); [exact (proj2 (need_param_no _) HO)|]. destruct (_ =?s _); [|discriminate].
    apply rbind_fuel in HO. destruct HO as [HO|(u & _ & HO)]; exact (proj2 (need_param_no _) HO). }
  apply rbind_fuel in HO. destruct HO as [HO|(u' & _ & HO)].
  - specialize (HN fuel Hf). destruct (fd_default f); try discriminate; destruct (fd_required f); try discriminate; exact (HN HO).
  - destruct (_ && _)%bool; discriminate.
Qed.
Lemma typedef_finishes td : (ts_type (td_spec td) = "Struct" -> ends_spec (td_spec td)) ->
  exists N, forall fuel, N <= fuel -> validate_typedef X m fuel td <> OutOfFuel.
Proof.
  intros H. unfold validate_typedef. destruct (ts_type (td_spec td) =?s "Struct") eqn:E.
  { apply seqb_eq in E. apply each_finishes. intros f Hf. apply field_finishes. intros ts' Hl. apply (H E).
    apply (le_field sch (td_spec td) f ts' E Hf Hl). }
  clear E. exists 0. intros fuel _. repeat match goal with |- context[if ?b =?s ?s then _ else _] => destruct (b =?s s) end; try discriminate.
  - unfold validate_array_def. destruct (_ =?s _); [discriminate|]. need_tac (ts_items (td_spec td)).
  - unfold validate_map_def. destruct (_ =?s _); [discriminate|]. need_tac (ts_items (td_spec td)).
    destruct (_ =?s _); [discriminate|]. need_tac (ts_keys (td_spec td)).
  - unfold validate_unit_def. need_tac (ts_value (td_spec td)). destruct (negb _); [discriminate|].
    need_tac (ts_unit (td_spec td)). destruct (str_mem _ _); discriminate.
  - unfold validate_string_def. destruct (_ && _)%bool; [discriminate|]. unfold validate_reference.
    destruct (_ =?s _); [discriminate|]. need_tac (ts_reference (td_spec td)).
  - unfold validate_reference. destruct (_ =?s _); [discriminate|]. need_tac (ts_reference (td_spec td)).
Qed.
Lemma params_finishes ps v : (forall p ts, In p ps -> defines sch (ts_type (fd_spec (ps_field p))) ts -> ends_spec ts) ->
  exists N, forall fuel, N <= fuel -> validate_params_example X m fuel ps v <> OutOfFuel.
Proof.
  intros H. unfold validate_params_example. destruct v as [| | | | | | | | | | | | |l]; try (exists 0; discriminate).
  destruct (each_finishes (fun fuel kv => each (fun p =>
             if fd_name (ps_field p) =?s fst kv
             then td <- need m (ts_type (fd_spec (ps_field p))) ;; conforms X m fuel (td_spec td) (snd kv)
             else Ok tt) ps) l) as (N & HN).
  { intros kv _. apply (each_finishes (fun fuel p => if fd_name (ps_field p) =?s fst kv
             then td <- need m (ts_type (fd_spec (ps_field p))) ;; conforms X m fuel (td_spec td) (snd kv) else Ok tt) ps).
    intros p Hp. destruct (_ =?s _); [|exists 0; discriminate].
    destruct (need_case (ts_type (fd_spec (ps_field p)))) as [[td Hd]|[e He]].
    - destruct (conforms_finishes (td_spec td) (snd kv)) as (N & HN).
      { apply (H p (td_spec td) Hp). exists td. split; [exact (proj1 (need_ok sch m Hm _ _) Hd)|reflexivity]. }
      exists N. rewrite Hd. cbn [rbind]. exact HN.
    - exists 0. rewrite He. discriminate. }
  exists N. intros fuel Hf HO. apply rbind_fuel in HO. destruct HO as [HO|(u & _ & HO)]; [exact (HN fuel Hf HO)|].
  apply each_fuel in HO. destruct HO as (p & _ & HO). destruct (_ && _)%bool; discriminate.
Qed.

Definition param_types_end (l : list paramspec) : Prop :=
  forall p ts, In p l -> defines sch (ts_type (fd_spec (ps_field p))) ts -> ends_spec ts.
Lemma parser_validate_finishes :
  (forall td, In td (sc_types sch) -> ts_type (td_spec td) = "Struct" -> ends_spec (td_spec td)) ->
  (forall ex ts, In ex (sc_examples sch) -> target_type sch (ex_target ex) ts -> ends_spec ts) ->
  (forall h, In h (sc_http sch) -> param_types_end (h_inputs h)
     /\ forall x, h_expected h = Some x -> param_types_end (xp_outputs x)) ->
  exists N, forall fuel, N <= fuel -> parser_validate X m fuel <> OutOfFuel.
Proof.
  intros HT HE HH. unfold parser_validate. rewrite (schema_of_model sch m Hm).
  destruct (each_finishes (validate_typedef X m) (sc_types sch)) as (N1 & H1).
  { intros td Ht. apply typedef_finishes. exact (HT td Ht). }
  destruct (each_finishes (validate_example X m) (sc_examples sch)) as (N2 & H2).
  { intros ex He. unfold validate_example. destruct (example_spec m (ex_target ex)) as [ts|] eqn:ES.
    - apply conforms_finishes. apply (HE ex ts He). apply (example_spec_iff sch m Hm). exact ES.
    - destruct (has_suffix "Request" (ex_target ex)) eqn:R.
      + destruct (find_http m (uncapitalize (drop_last 7 (ex_target ex)))) as [h|] eqn:F; [|exists 0; discriminate].
        apply (find_action sch m Hm "Request" (ex_target ex) h R) in F. destruct F as (Hi & _).
        apply params_finishes. intros p ts Hp. exact (proj1 (HH h Hi) p ts Hp).
      + destruct (has_suffix "Response" (ex_target ex)) eqn:P; [|exists 0; discriminate].
        destruct (find_http m (uncapitalize (drop_last 8 (ex_target ex)))) as [h|] eqn:F; [|exists 0; discriminate].
        apply (find_action sch m Hm "Response" (ex_target ex) h P) in F. destruct F as (Hi & _).
        destruct (ex_example ex) as [| | | | | | | | | | | | |l] eqn:V; try (exists 0; discriminate).
        destruct (h_expected h) as [x|] eqn:EX; [|exists 0; discriminate].
        apply params_finishes. intros p ts Hp. exact (proj2 (HH h Hi) x EX p ts Hp). }
  exists (Nat.max N1 N2). intros fuel Hf HO. apply rbind_fuel in HO. destruct HO as [HO|(u & _ & HO)]; [apply (H1 fuel); [lia|exact HO]|].
  apply rbind_fuel in HO. destruct HO as [HO|(u' & _ & HO)]; [apply (H2 fuel); [lia|exact HO]|].
  apply each_fuel in HO. destruct HO as (h & _ & HO). exact (proj2 (http_no h) HO).
Qed.
End C.

(** ** An answer does not depend on the bound *)
Definition sooner {E A} (r r' : result E A) : Prop := r <> OutOfFuel -> r' = r.
Lemma sooner_refl {E A} (r : result E A) : sooner r r.
Proof. intros _. reflexivity. Qed.
Lemma sooner_bind {E A B} (r r' : result E A) (f f' : A -> result E B) :
  sooner r r' -> (forall a, sooner (f a) (f' a)) -> sooner (rbind r f) (rbind r' f').
Proof.
  intros H Hf Hn. destruct r as [a|e| |]; try (rewrite (H ltac:(discriminate)); simpl in *; auto).
  - apply Hf. exact Hn.
  - exfalso. apply Hn. reflexivity.
Qed.
Lemma sooner_each {A E} (f f' : A -> result E unit) l : (forall x, sooner (f x) (f' x)) -> sooner (each f l) (each f' l).
Proof. intros H. induction l as [|x l IH]; simpl; [apply sooner_refl|]. apply sooner_bind; auto. Qed.

Section M.
Variable X : ext.
Variable m : model.
Variables n n' : nat.
Hypothesis Hn : n <= n'.
Lemma conforms_sooner ts v : sooner (conforms X m n ts v) (conforms X m n' ts v).
Proof.
  intros H. unfold conforms in *. rewrite (fuel_mono X m n n'); [reflexivity|exact Hn|]. intros E. apply H. rewrite E. reflexivity.
Qed.
Lemma field_sooner f : sooner (validate_field X m n f) (validate_field X m n' f).
Proof.
  unfold validate_field. apply sooner_bind; [apply sooner_refl|]. intros _. apply sooner_bind; [apply sooner_refl|]. intros _.
  apply sooner_bind; [|intros _; apply sooner_refl].
  destruct (fd_default f); try apply sooner_refl; destruct (fd_required f); try apply sooner_refl; apply conforms_sooner.
Qed.
Lemma params_sooner ps v : sooner (validate_params_example X m n ps v) (validate_params_example X m n' ps v).
Proof.
  unfold validate_params_example. destruct v; try apply sooner_refl. apply sooner_bind; [|intros _; apply sooner_refl].
  apply sooner_each. intros kv. apply sooner_each. intros p. destruct (_ =?s _); [|apply sooner_refl].
  apply sooner_bind; [apply sooner_refl|]. intros td. apply conforms_sooner.
Qed.
Lemma parser_validate_sooner : sooner (parser_validate X m n) (parser_validate X m n').
Proof.
  unfold parser_validate. apply sooner_bind; [|intros _; apply sooner_bind; [|intros _; apply sooner_refl]].
  - apply sooner_each. intros td. unfold validate_typedef. destruct (_ =?s "Struct"); [|apply sooner_refl].
    apply sooner_each. intros f. apply field_sooner.
  - apply sooner_each. intros ex. unfold validate_example. destruct (example_spec m (ex_target ex)); [apply conforms_sooner|].
    destruct (has_suffix "Request" _).
    + destruct (find_http _ _); [apply params_sooner|apply sooner_refl].
    + destruct (has_suffix "Response" _); [|apply sooner_refl]. destruct (find_http _ _); [|apply sooner_refl].
      destruct (ex_example ex); try apply sooner_refl. destruct (h_expected h); [apply params_sooner|apply sooner_refl].
Qed.
End M.
