(** Which Smithy documents can be read. *)
From Verif Require Import GoStr Outcome Value Schema Misc MiscFacts Model SpecModel ModelFacts SpecPV PVFacts SpecMisc SpecGen OpenApi SpecOpenApi
  OpenApiFacts SpecImport Smithy SmithyAst SpecSmithy.

Definition runs {A} (r : result unit A) (P : Prop) : Prop := (P /\ exists x, r = Ok x) \/ (~ P /\ r = Panic).
Lemma runs_ok {A} (x : A) : runs (Ok x) True.
Proof. left. split; [exact Logic.I|]. exists x. reflexivity. Qed.
Lemma runs_bind {A B} (r : result unit A) (f : A -> result unit B) P Q : runs r P -> (forall x, r = Ok x -> runs (f x) Q) -> runs (rbind r f) (P /\ Q).
Proof.
  intros [[H (x & E)]|[H E]] F; rewrite E; cbn [rbind]; [|right; split; [tauto|reflexivity]].
  destruct (F x E) as [[G (y & E')]|[G E']]; rewrite E'; [left; split; [tauto|exists y; reflexivity]|right; split; [tauto|reflexivity]].
Qed.
Lemma runs_iff {A} (r : result unit A) P Q : runs r P -> (P <-> Q) -> runs r Q.
Proof. intros [[H X]|[H X]] E; [left|right]; tauto. Qed.
Lemma runs_map {A B} (r : result unit A) (f : A -> B) P : runs r P -> runs (x <- r ;; Ok (f x)) P.
Proof. intros R. eapply runs_iff; [eapply runs_bind; [exact R|intros; apply runs_ok]|tauto]. Qed.
Lemma get_present {A} k (l : list (string * A)) : (get k l <> None) <-> exists v, In (k, v) l.
Proof.
  split.
  - intros H. destruct (get k l) as [v|] eqn:E; [|contradiction]. exists v. clear H. induction l as [|[k' v'] l IH]; simpl in E; [discriminate|].
    destruct (k =?s k') eqn:X; [apply seqb_eq in X; injection E as <-; subst; left; reflexivity|right; auto].
  - intros (v & I) E. apply get_None in E. apply E. apply (in_map fst) in I. exact I.
Qed.

Section Docs.
Context (L : slib) (a : ast).
Notation shapes := (as_shapes a).
Hypothesis MO : maps_once a.
Lemma keys_once : NoDup (map fst shapes). Proof. exact (proj1 MO). Qed.

Lemma trait_runs acc k v : runs (trait_anno L shapes acc (k, v)) (trait_ok a k).
Proof.
  assert (Y : In k known_traits -> forall x, @runs annos (Ok x) (trait_ok a k)) by (intros I x; left; split; [left; exact I|exists x; reflexivity]).
  unfold trait_anno.
  repeat match goal with
  | |- runs (if ?k =?s ?c then _ else _) _ => let E := fresh "E" in destruct (k =?s c) eqn:E; [apply seqb_eq in E; subst; apply Y; simpl; tauto|]
  | |- runs (if str_mem ?k ?l then _ else _) _ => let E := fresh "E" in destruct (str_mem k l) eqn:E; [apply str_mem_In in E; apply Y; simpl in E |- *; tauto|]
  end.
  assert (NK : ~ In k known_traits).
  { intros I. repeat match goal with H : (k =?s _) = false |- _ => apply seqb_neq in H | H : str_mem k ?l = false |- _ => assert (~ In k l) by (intros X; apply str_mem_In in X; congruence); clear H end.
    simpl in *. intuition congruence. }
  clear Y. destruct (get k shapes) as [s|] eqn:G.
  - apply (get_In k s shapes keys_once) in G. unfold t_map. destruct (get "smithy.api#trait" (sh_traits s)) as [tv|] eqn:T.
    + apply (get_In _ _ _ (proj1 (proj2 (proj2 MO)) k s G)) in T. destruct tv as [b|x|z|d|x|l|l].
      7: { left. split; [|eexists; reflexivity]. right. intros s' I'. apply (get_In k s' shapes keys_once) in I'. apply (get_In k s shapes keys_once) in G. assert (s' = s) by congruence. subst s'. exists l. exact T. }
      all: right; split; [|reflexivity]; intros [I|O]; [contradiction|]; destruct (O s G) as (l' & J);
        assert (D := proj1 (proj2 (proj2 MO)) k s G); apply (get_In _ _ _ D) in J; apply (get_In _ _ _ D) in T; congruence.
    + right. split; [|reflexivity]. intros [I|O]; [contradiction|]. destruct (O s G) as (l' & J). apply get_None in T. apply T. apply (in_map fst) in J. exact J.
  - left. split; [|eexists; reflexivity]. right. intros s I. apply get_None in G. exfalso. apply G. apply (in_map fst) in I. exact I.
Qed.
Lemma traits_run t : forall acc, runs (traits_annos L shapes acc t) (traits_ok a t).
Proof.
  induction t as [|[k v] t IH]; intros acc; cbn [traits_annos].
  - eapply runs_iff; [apply runs_ok|]. split; [intros _ k v []|auto].
  - eapply runs_iff; [eapply runs_bind; [apply trait_runs|intros; apply IH]|]. split.
    + intros [H1 H2] k' v' [I|I]; [injection I as <- <-; exact H1|exact (H2 k' v' I)].
    + intros H. split; [apply (H k v); left; reflexivity|]. intros k' v' I. apply (H k' v'). right. exact I.
Qed.
Lemma present_iff n : present a n <-> get n shapes <> None.
Proof. rewrite get_present. reflexivity. Qed.

Definition http_dict (s : shape) : traits := match t_map "smithy.api#http" (sh_traits s) with Some l => l | None => [] end.
Lemma http_method_iff n s m : In (n, s) shapes -> (http_method s m <-> t_text "method" (http_dict s) = m /\ m <> "").
Proof.
  intros I. assert (D := proj1 (proj2 (proj2 MO)) n s I). unfold http_dict, t_map, t_text. split.
  - intros (l & J & K & NE). assert (DL := proj2 (proj2 (proj2 MO)) n s l I J). apply (get_In _ _ _ D) in J. rewrite J. apply (get_In _ _ _ DL) in K. rewrite K. auto.
  - intros [E NE]. destruct (get "smithy.api#http" (sh_traits s)) as [tv|] eqn:G; [|simpl in E; congruence]. destruct tv as [b|x|z|d|x|l|l]; try (simpl in E; congruence).
    apply (get_In _ _ _ D) in G. assert (DL := proj2 (proj2 (proj2 MO)) n s l I G). destruct (get "method" l) as [v|] eqn:GM; [|simpl in E; congruence].
    destruct v as [b|x|z|d|x|l0|l0]; simpl in E; try congruence. subst x. apply (get_In _ _ _ DL) in GM. exists l. auto.
Qed.

Lemma elements_run ms : runs (read_elements L shapes ms) (forall k m, In (k, m) ms -> traits_ok a (mb_traits m)).
Proof.
  induction ms as [|[k m] ms IH]; cbn [read_elements]; [eapply runs_iff; [apply runs_ok|split; [intros _ k m []|auto]]|].
  eapply runs_iff; [eapply runs_bind; [apply traits_run|intros; apply runs_map; exact IH]|]. split.
  - intros [H1 H2] k' m' [I|I]; [injection I as <- <-; exact H1|exact (H2 k' m' I)].
  - intros H. split; [apply (H k m); left; reflexivity|intros k' m' I; apply (H k' m'); right; exact I].
Qed.
Lemma variants_run ms : runs (read_variants L shapes ms) (forall k m, In (k, m) ms -> traits_ok a (mb_traits m)).
Proof.
  induction ms as [|[k m] ms IH]; cbn [read_variants]; [eapply runs_iff; [apply runs_ok|split; [intros _ k m []|auto]]|].
  eapply runs_iff; [eapply runs_bind; [apply traits_run|intros; apply runs_map; exact IH]|]. split.
  - intros [H1 H2] k' m' [I|I]; [injection I as <- <-; exact H1|exact (H2 k' m' I)].
  - intros H. split; [apply (H k m); left; reflexivity|intros k' m' I; apply (H k' m'); right; exact I].
Qed.
Lemma fields_run ms : runs (read_fields L shapes ms) (forall k m, In (k, m) ms -> traits_ok a (mb_traits m)).
Proof.
  induction ms as [|[k m] ms IH]; cbn [read_fields]; [eapply runs_iff; [apply runs_ok|split; [intros _ k m []|auto]]|].
  eapply runs_iff; [eapply runs_bind; [apply traits_run|intros; apply runs_map; exact IH]|]. split.
  - intros [H1 H2] k' m' [I|I]; [injection I as <- <-; exact H1|exact (H2 k' m' I)].
  - intros H. split; [apply (H k m); left; reflexivity|intros k' m' I; apply (H k' m'); right; exact I].
Qed.
Lemma errors_run l : runs (read_errors L shapes l) (forall t, In t l -> present a t).
Proof.
  induction l as [|t l IH]; cbn [read_errors]; [eapply runs_iff; [apply runs_ok|split; [intros _ t []|auto]]|].
  destruct (get t shapes) as [e|] eqn:G.
  - eapply runs_iff; [apply runs_map; exact IH|]. split; [|intros H x I; apply H; right; exact I]. intros H x [<-|I]; [|exact (H x I)]. apply present_iff. congruence.
  - right. split; [|reflexivity]. intros H. assert (P := H t (or_introl eq_refl)). apply present_iff in P. contradiction.
Qed.
Lemma outputs_run s : runs (read_outputs L shapes s) (forall t, sh_output s = Some t -> t = "smithy.api#Unit" \/ present a t).
Proof.
  unfold read_outputs. destruct (sh_output s) as [t|]; [|eapply runs_iff; [apply runs_ok|split; [intros _ t X; discriminate X|auto]]].
  destruct (t =?s "smithy.api#Unit") eqn:E; [apply seqb_eq in E; eapply runs_iff; [apply runs_ok|split; [intros _ x X; injection X as <-; auto|auto]]|].
  destruct (get t shapes) as [o|] eqn:G.
  - assert (P : present a t) by (apply present_iff; congruence).
    match goal with |- runs (if ?b then _ else _) _ => destruct b end; (eapply runs_iff; [apply runs_ok|split; [intros _ x X; injection X as <-; auto|auto]]).
  - right. split; [|reflexivity]. intros H. apply seqb_neq in E. destruct (H t eq_refl) as [X|X]; [contradiction|]. apply present_iff in X. contradiction.
Qed.
Lemma http_run n s d : runs (read_http L shapes n s d) (traits_ok a (sh_traits s) /\ (forall t, sh_output s = Some t -> t = "smithy.api#Unit" \/ present a t) /\ (forall t, In t (sh_errors s) -> present a t)).
Proof.
  unfold read_http. eapply runs_bind; [apply traits_run|]. intros x _. destruct (read_inputs L shapes s) as [ins qs]. eapply runs_bind; [apply outputs_run|]. intros y _. apply runs_map. apply errors_run.
Qed.
Lemma operation_run n s : runs (read_operation L shapes n s) (traits_ok a (sh_traits s) /\ (forall t, sh_input s = Some t \/ sh_output s = Some t -> present a t)).
Proof.
  unfold read_operation. eapply runs_bind; [apply traits_run|]. intros x _.
  apply (runs_iff _ ((forall t, sh_input s = Some t -> present a t) /\ (forall t, sh_output s = Some t -> present a t))).
  2: { split; [intros [A B] t [E|E]; auto|intros H; split; intros t E; apply H; auto]. }
  eapply runs_bind.
  - destruct (sh_input s) as [t|]; [|eapply runs_iff; [apply runs_ok|split; [intros _ t X; discriminate X|auto]]]. destruct (get t shapes) as [o|] eqn:G.
    + eapply runs_iff; [apply runs_ok|]. split; [|auto]. intros _ y X. injection X as <-. apply present_iff. congruence.
    + right. split; [|reflexivity]. intros H. assert (P := H t eq_refl). apply present_iff in P. contradiction.
  - intros y _. apply runs_map. destruct (sh_output s) as [t|]; [|eapply runs_iff; [apply runs_ok|split; [intros _ t X; discriminate X|auto]]]. destruct (get t shapes) as [o|] eqn:G.
    + eapply runs_iff; [apply runs_ok|]. split; [|auto]. intros _ z X. injection X as <-. apply present_iff. congruence.
    + right. split; [|reflexivity]. intros H. assert (P := H t eq_refl). apply present_iff in P. contradiction.
Qed.

Definition kinds_of_shape : list string :=
  ["byte"; "short"; "integer"; "long"; "float"; "double"; "bigInteger"; "bigDecimal"; "timestamp"; "boolean"; "string"; "blob"; "service"; "resource";
   "list"; "set"; "map"; "structure"; "union"; "enum"; "operation"].
Lemma kind_cases s : {In (sh_type s) kinds_of_shape} + {~ In (sh_type s) kinds_of_shape}.
Proof. apply in_dec. apply string_dec. Qed.
Lemma shape_ok_kind s : shape_ok a s -> In (sh_type s) kinds_of_shape.
Proof. intros [I _|I|m I _|k v I _ _|I _ _|m I _ _ _ _|I _ _ _]; try (simpl in I |- *; tauto); rewrite I; simpl; tauto. Qed.
Ltac inv_ok T := let H := fresh in intros H; destruct H as [I ?|I|m I ?|k v I ? ?|I ? ?|m I ? ? ? ?|I ? ? ?]; rewrite ?T in I; try (exfalso; simpl in I; intuition discriminate).
Lemma shape_runs n s : In (n, s) shapes -> runs (read_shape L shapes n s) (shape_ok a s).
Proof.
  intros IN. destruct (kind_cases s) as [K|K].
  2: { right. split; [intros O; apply K; apply shape_ok_kind; exact O|]. unfold read_shape. simpl in K.
       repeat match goal with |- (if ?x =?s ?c then _ else _) = _ => let E := fresh "E" in destruct (x =?s c) eqn:E; [apply seqb_eq in E; exfalso; apply K; rewrite E; tauto|]
         | |- (if str_mem ?x ?l then _ else _) = _ => let E := fresh "E" in destruct (str_mem x l) eqn:E; [apply str_mem_In in E; exfalso; apply K; simpl in E; tauto|] end. reflexivity. }
  unfold kinds_of_shape in K. simpl in K.
  destruct (in_dec string_dec (sh_type s) ["byte"; "short"; "integer"; "long"; "float"; "double"; "bigInteger"; "bigDecimal"]) as [J|J].
  { assert (R : read_shape L shapes n s = types_part (read_number L shapes n s)). { unfold read_shape. apply str_mem_In in J. rewrite J. reflexivity. }
    rewrite R. unfold types_part. apply runs_map. unfold read_number. eapply runs_iff; [eapply runs_bind; [apply traits_run|]|].
    - intros x _. destruct (t_map "smithy.api#range" (sh_traits s)); apply runs_ok.
    - split; [intros [H _]; apply so_plain; [simpl in J |- *; tauto|exact H]|]. intros O. split; [|exact Logic.I].
      destruct O as [I O|I|m I O|k v I O1 O2|I O1 O2|m I O1 O2 O3 O4|I O1 O2 O3]; [exact O| | | |exact O1|exact O2|exact O2]; exfalso; try rewrite I in J; simpl in *; intuition congruence. }
  assert (J2 : In (sh_type s) ["timestamp"; "boolean"; "string"; "blob"; "service"; "resource"; "list"; "set"; "map"; "structure"; "union"; "enum"; "operation"]) by (simpl in J |- *; tauto).
  clear K J. simpl in J2. unfold read_shape. destruct J2 as [T|[T|[T|[T|[T|[T|[T|[T|[T|[T|[T|[T|[T|[]]]]]]]]]]]]]]; symmetry in T; rewrite T; cbv zeta; cbn [str_mem existsb String.eqb Ascii.eqb Bool.eqb orb].
  - unfold types_part. apply runs_map. unfold read_plain. apply runs_map. eapply runs_iff; [apply traits_run|]. split; [intros H; apply so_plain; [rewrite T; simpl; tauto|exact H]|inv_ok T; assumption].
  - unfold types_part. apply runs_map. unfold read_plain. apply runs_map. eapply runs_iff; [apply traits_run|]. split; [intros H; apply so_plain; [rewrite T; simpl; tauto|exact H]|inv_ok T; assumption].
  - eapply runs_iff; [apply runs_map; apply runs_ok|]. split; [intros _; apply so_free; rewrite T; simpl; tauto|auto].
  - eapply runs_iff; [apply runs_map; apply runs_ok|]. split; [intros _; apply so_free; rewrite T; simpl; tauto|auto].
  - eapply runs_iff; [apply runs_ok|]. split; [intros _; apply so_free; rewrite T; simpl; tauto|auto].
  - eapply runs_iff; [apply runs_ok|]. split; [intros _; apply so_free; rewrite T; simpl; tauto|auto].
  - unfold types_part. apply runs_map. unfold read_list. destruct (sh_member s) as [mm|] eqn:M; [eapply runs_iff; [apply runs_ok|]; split; [intros _; eapply so_list; [rewrite T; simpl; tauto|exact M]|auto]|].
    right. split; [inv_ok T; congruence|reflexivity].
  - unfold types_part. apply runs_map. unfold read_list. destruct (sh_member s) as [mm|] eqn:M; [eapply runs_iff; [apply runs_ok|]; split; [intros _; eapply so_list; [rewrite T; simpl; tauto|exact M]|auto]|].
    right. split; [inv_ok T; congruence|reflexivity].
  - unfold types_part. apply runs_map. unfold read_map. destruct (sh_key s) as [kk|] eqn:M; [destruct (sh_value s) as [vv|] eqn:V; [eapply runs_iff; [apply runs_ok|]; split; [intros _; eapply so_map; [exact T|exact M|exact V]|auto]|]|];
      (right; split; [inv_ok T; congruence|reflexivity]).
  - unfold types_part. apply runs_map. unfold read_struct. eapply runs_iff; [eapply runs_bind; [apply traits_run|intros; apply runs_map; apply fields_run]|].
    split; [intros [A B]; apply so_members; [rewrite T; simpl; tauto|exact A|exact B]|inv_ok T; auto].
  - unfold types_part. apply runs_map. unfold read_union. eapply runs_iff; [eapply runs_bind; [apply traits_run|intros; apply runs_map; apply variants_run]|].
    split; [intros [A B]; apply so_members; [rewrite T; simpl; tauto|exact A|exact B]|inv_ok T; auto].
  - unfold types_part. apply runs_map. unfold read_enum. eapply runs_iff; [eapply runs_bind; [apply traits_run|intros; apply runs_map; apply elements_run]|].
    split; [intros [A B]; apply so_members; [rewrite T; simpl; tauto|exact A|exact B]|inv_ok T; auto].
  - unfold read_op_shape. fold (http_dict s). cbv zeta. assert (HM := fun m => http_method_iff n s m IN). destruct (t_text "method" (http_dict s) =?s "") eqn:E.
    + apply seqb_eq in E. assert (NM : forall m, ~ http_method s m) by (intros m H; apply HM in H; destruct H; congruence). apply runs_map. eapply runs_iff; [apply operation_run|]. split.
      * intros [A B]. apply so_operation; auto.
      * inv_ok T; [exfalso; eapply NM; eassumption|auto].
    + apply seqb_neq in E. assert (YM : http_method s (t_text "method" (http_dict s))) by (apply HM; auto). apply runs_map. eapply runs_iff; [apply http_run|]. split.
      * intros (A & B & C). eapply so_action; eauto.
      * inv_ok T; [auto|exfalso; match goal with H : forall m, ~ http_method s m |- _ => exact (H _ YM) end].
Qed.
Lemma io_iff n : str_mem n (io_params shapes) = true <-> io_of_operation a n.
Proof.
  rewrite str_mem_In. unfold io_params. rewrite in_flat_map. split.
  - intros ([k o] & I & J). cbn [snd] in J. destruct (sh_type o =?s "operation") eqn:T; [|destruct J]. apply seqb_eq in T. exists k, o. split; [exact I|]. split; [exact T|].
    apply in_app_iff in J. destruct J as [J|J]; [left; destruct (sh_input o)|right; destruct (sh_output o)]; simpl in J; intuition congruence.
  - intros (k & o & I & T & J). exists (k, o). split; [exact I|]. cbn [snd]. rewrite T. cbn. apply in_app_iff. destruct J as [-> | ->]; simpl; auto.
Qed.
Lemma shapes_run sv l : incl l shapes -> runs (read_shapes L shapes sv l) (forall n s, In (n, s) l -> ~ io_of_operation a n -> shape_ok a s).
Proof.
  induction l as [|[n s] l IH]; intros IN; cbn [read_shapes]; [eapply runs_iff; [apply runs_ok|split; [intros _ n s []|auto]]|].
  apply (runs_iff _ ((~ io_of_operation a n -> shape_ok a s) /\ (forall n s, In (n, s) l -> ~ io_of_operation a n -> shape_ok a s))).
  2: { split; [intros [A B] n' s' [E|E]; [injection E as <- <-; exact A|exact (B n' s' E)]|intros H; split; [apply (H n s); left; reflexivity|intros n' s' E; apply H; right; exact E]]. }
  eapply runs_bind; [|intros; apply runs_map; apply IH; intros z Z; apply IN; right; exact Z].
  destruct (str_mem n (io_params shapes)) eqn:IO.
  - rewrite andb_false_r. eapply runs_iff; [apply runs_ok|]. apply io_iff in IO. split; [intros _ X; contradiction|auto].
  - assert (NIO : ~ io_of_operation a n) by (rewrite <- io_iff; congruence). cbn [negb]. rewrite andb_true_r. destruct (sh_type s =?s "service") eqn:T; cbn [negb orb].
    + apply seqb_eq in T. assert (O : shape_ok a s) by (apply so_free; rewrite T; simpl; tauto). destruct (n =?s sv).
      * eapply runs_iff; [apply shape_runs; apply IN; left; reflexivity|]. tauto.
      * eapply runs_iff; [apply runs_ok|]. tauto.
    + eapply runs_iff; [apply shape_runs; apply IN; left; reflexivity|]. tauto.
Qed.

(** ** The service *)
Lemma find_want w l : w <> "" -> forall n v, exists r, find_service w l n v = Ok r.
Proof.
  intros W. induction l as [|[k s] l IH]; intros n v; cbn [find_service]; [eauto|]. destruct (sh_type s =?s "service"); [|apply IH].
  destruct (w =?s "") eqn:E; [apply seqb_eq in E; contradiction|]. cbn [negb]. destruct (k =?s w); apply IH.
Qed.
Definition services (l : list (string * shape)) := filter (fun x : string * shape => sh_type (snd x) =?s "service") l.
Lemma find_any l : ~ In "" (map fst l) -> forall n v,
  (exists r, find_service "" l n v = Ok r /\ (n = "" -> length (services l) <= 1) /\ (n <> "" -> services l = []))
  \/ (find_service "" l n v = Err tt /\ (n = "" -> 2 <= length (services l)) /\ (n <> "" -> services l <> [])).
Proof.
  induction l as [|[k s] l IH]; intros NE n v; cbn [find_service]; [left; exists (n, v); simpl; auto with arith|].
  assert (NE' : ~ In "" (map fst l)) by (intros X; apply NE; right; exact X). assert (KN : k <> "") by (intros ->; apply NE; left; reflexivity).
  unfold services in *. cbn [filter snd]. destruct (sh_type s =?s "service"); [|apply IH; exact NE']. cbn [String.eqb negb]. destruct (n =?s "") eqn:E; cbn [negb].
  - apply seqb_eq in E. subst n. destruct (IH NE' k (sh_version s)) as [(r & R & _ & Z)|(R & _ & Z)]; specialize (Z KN).
    + left. exists r. split; [exact R|]. rewrite Z. split; [simpl; auto|congruence].
    + right. split; [exact R|]. split; [|congruence]. intros _. destruct (filter _ l); [contradiction|simpl; lia].
  - apply seqb_neq in E. right. split; [reflexivity|]. split; [contradiction|discriminate].
Qed.
Lemma services_one : (forall n n' s s', In (n, s) shapes -> In (n', s') shapes -> sh_type s = "service" -> sh_type s' = "service" -> n = n') <-> length (services shapes) <= 1.
Proof.
  assert (SI : forall x, In x (services shapes) <-> In x shapes /\ sh_type (snd x) = "service") by (intros x; unfold services; rewrite filter_In, seqb_eq; reflexivity).
  assert (ND : NoDup (map fst (services shapes))).
  { unfold services. generalize keys_once. generalize shapes. intros l. induction l as [|x l IH]; simpl; intros D; [constructor|]. inversion D as [|? ? N D']; subst. destruct (sh_type (snd x) =?s "service"); [|auto].
    simpl. constructor; [|auto]. intros X. apply N. apply in_map_iff in X. destruct X as (y & E & Y). apply filter_In in Y. rewrite <- E. apply in_map. tauto. }
  split.
  - intros H. destruct (services shapes) as [|[n s] [|[n' s'] r]] eqn:E; simpl; [lia|lia|]. exfalso. simpl in ND. inversion ND as [|? ? N _]; subst. apply N. left. symmetry.
    assert (A := proj1 (SI (n, s)) (or_introl eq_refl)). assert (B := proj1 (SI (n', s')) (or_intror (or_introl eq_refl))). cbn [snd] in A, B. eapply (H n n' s s'); tauto.
  - intros H n n' s s' I I' T T'. assert (A : In (n, s) (services shapes)) by (apply SI; auto). assert (B : In (n', s') (services shapes)) by (apply SI; auto).
    destruct (services shapes) as [|x [|y r]]; [destruct A| |simpl in H; lia]. destruct A as [->|[]]. destruct B as [B|[]]. congruence.
Qed.
Lemma service_runs w : (one_service a w /\ exists r, find_service w shapes "" "" = Ok r) \/ (~ one_service a w /\ find_service w shapes "" "" = Err tt).
Proof.
  unfold one_service. destruct (string_dec w "") as [->|W].
  - destruct (find_any shapes (proj1 (proj2 MO)) "" "") as [(r & R & Z & _)|(R & Z & _)]; specialize (Z eq_refl).
    + left. split; [|eauto]. intros _. apply services_one. exact Z.
    + right. split; [|exact R]. intros H. specialize (H eq_refl). apply services_one in H. lia.
  - left. split; [contradiction|]. apply find_want. exact W.
Qed.

(** ** Names *)
Definition type_shapes : list string :=
  ["byte"; "short"; "integer"; "long"; "float"; "double"; "bigInteger"; "bigDecimal"; "timestamp"; "boolean";
   "string"; "blob"; "list"; "set"; "map"; "structure"; "union"; "enum"].
Definition tname (x : string * shape) : list string :=
  if str_mem (sh_type (snd x)) type_shapes && negb ((sh_type (snd x) =?s "string") && (strip_namespace (fst x) =?s "UUID")) then [strip_namespace (fst x)] else [].
Definition hname (x : string * shape) : list string :=
  if (sh_type (snd x) =?s "operation") && negb (t_text "method" (http_dict (snd x)) =?s "") then [uncapitalize (strip_namespace (fst x))] else [].
Lemma types_part_inv r p : types_part r = Ok p -> exists l, r = Ok l /\ p = mkPart l [] [] [].
Proof. unfold types_part. intros H. apply rbind_Ok in H. destruct H as (l & R & E). injection E as <-. eauto. Qed.
Ltac one_type H := apply types_part_inv in H; let l := fresh in let R := fresh in destruct H as (l & R & ->);
  unfold read_number, read_plain, read_list, read_map, read_struct, read_union, read_enum, read_blob in R;
  repeat match type of R with rbind _ _ = Ok _ => apply rbind_Ok in R; destruct R as (? & _ & R)
    | match ?o with _ => _ end = Ok _ => destruct o; try discriminate R
    | (let '(_, _) := ?o in _) = Ok _ => destruct o end; injection R as <-; split; reflexivity.
Lemma shape_names_of n s p : read_shape L shapes n s = Ok p -> map td_name (p_types p) = tname (n, s) /\ map h_name (p_https p) = hname (n, s).
Proof.
  intros H. unfold read_shape in H. unfold tname, hname. cbn [fst snd]. cbv zeta in H.
  destruct (str_mem (sh_type s) ["byte"; "short"; "integer"; "long"; "float"; "double"; "bigInteger"; "bigDecimal"]) eqn:E0.
  { apply str_mem_In in E0. simpl in E0. repeat (destruct E0 as [<-|E0]; [cbn; one_type H|]). destruct E0. }
  clear E0. repeat match type of H with (if ?x =?s ?c then _ else _) = _ => let E := fresh "E" in destruct (x =?s c) eqn:E; [apply seqb_eq in E; rewrite E; cbn [str_mem existsb String.eqb Ascii.eqb Bool.eqb orb andb negb]; first [one_type H|idtac]|clear E] end.
  - change (str_mem "string" type_shapes) with true. cbn [andb]. injection H as <-. unfold read_string. destruct (strip_namespace n =?s "UUID"); cbn [negb]; [split; reflexivity|].
    destruct (read_sizes L (sh_traits s)). split; reflexivity.
  - change (str_mem "blob" type_shapes) with true. cbn [andb]. injection H as <-. unfold read_blob. destruct (read_sizes L (sh_traits s)). split; reflexivity.
  - injection H as <-. split; reflexivity.
  - change (str_mem "operation" type_shapes) with false. cbn [andb]. unfold read_op_shape in H. fold (http_dict s) in H. destruct (t_text "method" (http_dict s) =?s ""); cbn [negb].
    + apply rbind_Ok in H. destruct H as (o & _ & Q). injection Q as <-. split; reflexivity.
    + apply rbind_Ok in H. destruct H as (h & R & Q). injection Q as <-. split; [reflexivity|]. unfold read_http in R. apply rbind_Ok in R. destruct R as (x & _ & R). destruct (read_inputs L shapes s) as [ins qs].
      apply rbind_Ok in R. destruct R as (y & _ & R). apply rbind_Ok in R. destruct R as (z & _ & R). injection R as <-. reflexivity.
  - injection H as <-. split; reflexivity.
  - discriminate H.
Qed.
Definition kept_shape (x : string * shape) : bool := negb (str_mem (fst x) (io_params shapes)).
Lemma names_of sv l p : read_shapes L shapes sv l = Ok p ->
  map td_name (p_types p) = flat_map tname (filter kept_shape l) /\ map h_name (p_https p) = flat_map hname (filter kept_shape l).
Proof.
  revert p. induction l as [|[n s] l IH]; intros p H; cbn [read_shapes] in H; [injection H as <-; split; reflexivity|].
  apply rbind_Ok in H. destruct H as (p1 & R1 & H). apply rbind_Ok in H. destruct H as (p2 & R2 & Q). injection Q as <-. cbn [p_types p_https]. rewrite !map_app. destruct (IH p2 R2) as [-> ->].
  cbn [filter]. assert (KE : kept_shape (n, s) = negb (str_mem n (io_params shapes))) by reflexivity. rewrite KE. destruct (str_mem n (io_params shapes)) eqn:IO; cbn [negb] in *.
  - rewrite andb_false_r in R1. injection R1 as <-. split; reflexivity.
  - rewrite andb_true_r in R1. cbn [flat_map]. destruct (negb (sh_type s =?s "service") || (n =?s sv)) eqn:SV.
    + destruct (shape_names_of n s p1 R1) as [-> ->]. split; reflexivity.
    + injection R1 as <-. apply orb_false_iff in SV. destruct SV as [SV _]. apply negb_false_iff in SV. apply seqb_eq in SV. unfold tname, hname. cbn [snd]. rewrite SV. split; reflexivity.
Qed.
Lemma flat_once {A} (g : string * A -> list string) (l : list (string * A)) : (forall x, length (g x) <= 1) -> NoDup (map fst l) ->
  (NoDup (flat_map g l) <-> forall x y t, In x l -> In y l -> In t (g x) -> In t (g y) -> fst x = fst y).
Proof.
  intros G. induction l as [|x l IH]; intros D; [split; [intros _ x y t []|intros _; constructor]|]. inversion D as [|? ? N D']; subst. cbn [flat_map]. specialize (IH D'). split.
  - intros H. assert (H1 : NoDup (flat_map g l)). { clear - H. induction (g x) as [|t r IH]; [exact H|]. inversion H; subst. auto. }
    assert (H2 : forall t, In t (g x) -> ~ In t (flat_map g l)).
    { clear - H. induction (g x) as [|u r IH]; intros t I; [destruct I|]. inversion H as [|? ? N D]; subst. destruct I as [->|I]; [intros X; apply N; apply in_app_iff; auto|apply IH; auto]. }
    intros y z t [<-|I] [<-|J] Ty Tz; [reflexivity| | |].
    + exfalso. apply (H2 t Ty). apply in_flat_map. eauto.
    + exfalso. apply (H2 t Tz). apply in_flat_map. eauto.
    + eapply (proj1 IH H1); eassumption.
  - intros H. assert (R : NoDup (flat_map g l)). { apply IH. intros y z t I J. apply H; right; assumption. }
    assert (GX := G x). destruct (g x) as [|t [|u r]] eqn:E; [exact R| |simpl in GX; lia]. simpl. constructor; [|exact R]. intros X. apply in_flat_map in X. destruct X as (y & I & J).
    apply N. assert (Q : fst x = fst y). { apply (H x y t); [left; reflexivity|right; exact I|rewrite E; left; reflexivity|exact J]. } rewrite Q. apply in_map. exact I.
Qed.
Lemma local_iff n l : local_name n l <-> strip_namespace n = l.
Proof.
  unfold local_name, strip_namespace, no_hash. destruct (cut "#" n) as [[x y]|] eqn:C.
  - apply cut_Some in C. destruct C as [-> NX]. split.
    + intros [[NH _]|(p & NP & E)]; [exfalso; apply NH; exists x, y; reflexivity|]. apply no_char_smem in NP.
      assert (Q : cut "#" (x +++ String "#" y) = Some (p, l)) by (apply cut_Some; split; [exact E|exact NP]). assert (Q2 : cut "#" (x +++ String "#" y) = Some (x, y)) by (apply cut_Some; auto). congruence.
    + intros ->. right. exists x. split; [apply no_char_smem; exact NX|reflexivity].
  - apply cut_None in C. split.
    + intros [[_ ->]|(p & NP & ->)]; [reflexivity|]. exfalso. apply no_char_smem in C. apply C. exists p, l. reflexivity.
    + intros <-. left. split; [apply no_char_smem; exact C|reflexivity].
Qed.
Lemma kept_iff x : In x (filter kept_shape shapes) <-> In x shapes /\ ~ io_of_operation a (fst x).
Proof. rewrite filter_In. unfold kept_shape. rewrite <- io_iff. destruct (str_mem (fst x) (io_params shapes)); simpl; intuition congruence. Qed.
Lemma tname_iff n t : makes_type a n t <-> exists s, In (n, s) (filter kept_shape shapes) /\ In t (tname (n, s)).
Proof.
  unfold makes_type. rewrite local_iff. split.
  - intros (E & s & I & NIO & K & NU). exists s. split; [apply kept_iff; auto|]. unfold tname. cbn [fst snd]. rewrite E. assert (SM : str_mem (sh_type s) type_shapes = true) by (apply str_mem_In; exact K). rewrite SM.
    destruct (sh_type s =?s "string") eqn:T; [|simpl; auto]. destruct (t =?s "UUID") eqn:U; [|simpl; auto]. apply seqb_eq in T, U. exfalso. auto.
  - intros (s & I & J). apply kept_iff in I. destruct I as [I NIO]. unfold tname in J. cbn [fst snd] in *. destruct (str_mem (sh_type s) type_shapes) eqn:K; [|destruct J]. apply str_mem_In in K. cbn [andb] in J.
    destruct ((sh_type s =?s "string") && (strip_namespace n =?s "UUID")) eqn:U; [destruct J|]. destruct J as [E|[]]. split; [exact E|]. exists s. repeat (split; [assumption|]). intros [T E2]. subst t. rewrite T, E2 in U. discriminate U.
Qed.
Lemma hname_iff n t : makes_action a n t <-> exists s, In (n, s) (filter kept_shape shapes) /\ In t (hname (n, s)).
Proof.
  unfold makes_action. split.
  - intros (l & LN & SF & s & m & I & NIO & T & HM). apply local_iff in LN. subst l. apply small_first_iff in SF. subst t. exists s. split; [apply kept_iff; auto|]. unfold hname. cbn [fst snd]. rewrite T.
    apply (http_method_iff n s m I) in HM. destruct HM as [E NE]. rewrite E. destruct (m =?s "") eqn:X; [apply seqb_eq in X; contradiction|]. left. reflexivity.
  - intros (s & I & J). apply kept_iff in I. destruct I as [I NIO]. unfold hname in J. cbn [fst snd] in *. destruct (sh_type s =?s "operation") eqn:T; [|destruct J]. apply seqb_eq in T. cbn [andb] in J.
    destruct (t_text "method" (http_dict s) =?s "") eqn:U; [destruct J|]. apply seqb_neq in U. destruct J as [E|[]]. exists (strip_namespace n). split; [apply local_iff; reflexivity|]. split; [apply small_first_iff; exact E|].
    exists s, (t_text "method" (http_dict s)). repeat (split; [assumption|]). apply (http_method_iff n s _ I). auto.
Qed.
Lemma clear_iff sv p sch : read_shapes L shapes sv shapes = Ok p -> sc_types sch = p_types p -> sc_http sch = p_https p -> (collision_free sch <-> names_clear a).
Proof.
  intros R ET EH. destruct (names_of _ _ _ R) as [NT NH]. unfold collision_free, names_clear. rewrite ET, EH, NT, NH.
  assert (D : NoDup (map fst (filter kept_shape shapes))).
  { generalize keys_once. generalize shapes. intros l. induction l as [|x l IH]; simpl; intros D; [constructor|]. inversion D as [|? ? N D']; subst. destruct (kept_shape x); [|auto].
    simpl. constructor; [|auto]. intros X. apply N. apply in_map_iff in X. destruct X as (y & E & Y). apply filter_In in Y. rewrite <- E. apply in_map. tauto. }
  rewrite (flat_once tname) by (try exact D; intros x; unfold tname; destruct (_ && _); simpl; lia). rewrite (flat_once hname) by (try exact D; intros x; unfold hname; destruct (_ && _); simpl; lia).
  assert (A1 : (forall x y t, In x (filter kept_shape shapes) -> In y (filter kept_shape shapes) -> In t (tname x) -> In t (tname y) -> fst x = fst y) <-> (forall n n' t, makes_type a n t -> makes_type a n' t -> n = n')).
  { split; [intros H n n' t A B; apply tname_iff in A, B; destruct A as (s & I & J), B as (s' & I' & J'); exact (H _ _ t I I' J J')|].
    intros H [n s] [n' s'] t I I' J J'. cbn [fst]. apply (H n n' t); apply tname_iff; eauto. }
  assert (A2 : (forall x y t, In x (filter kept_shape shapes) -> In y (filter kept_shape shapes) -> In t (hname x) -> In t (hname y) -> fst x = fst y) <-> (forall n n' t, makes_action a n t -> makes_action a n' t -> n = n')).
  { split; [intros H n n' t A B; apply hname_iff in A, B; destruct A as (s & I & J), B as (s' & I' & J'); exact (H _ _ t I I' J J')|].
    intros H [n s] [n' s'] t I I' J J'. cbn [fst]. apply (H n n' t); apply hname_iff; eauto. }
  assert (A3 : (forall td, In td (p_types p) -> ~ In (td_name td) builtin_names) <-> (forall n t, makes_type a n t -> ~ In t builtin_names)).
  { assert (B : forall t, (exists n, makes_type a n t) <-> In t (map td_name (p_types p))).
    { intros t. rewrite NT, in_flat_map. split; [intros (n & M); apply tname_iff in M; destruct M as (s & I & J); eauto|]. intros ([n s] & I & J). exists n. apply tname_iff. eauto. }
    split; [intros H n t M|intros H td I].
    - assert (I : In t (map td_name (p_types p))) by (apply B; eauto). apply in_map_iff in I. destruct I as (td & <- & I). exact (H td I).
    - apply (in_map td_name) in I. apply B in I. destruct I as (n & M). exact (H _ _ M). }
  rewrite A1, A2, A3. reflexivity.
Qed.

(** ** Whole documents *)
Lemma import_outcome name nspace service base :
  (smithy_readable a service /\ exists m, smithy_import L name nspace service base a = Ok m)
  \/ (one_service a service /\ ~ shapes_ok a /\ smithy_import L name nspace service base a = Panic)
  \/ ((~ one_service a service \/ (shapes_ok a /\ ~ names_clear a)) /\ smithy_import L name nspace service base a = Err tt).
Proof.
  unfold smithy_import, smithy_schema. destruct (service_runs service) as [[OS ((sn, sv) & R)]|[OS R]]; rewrite R; cbn [rbind]; [|right; right; auto].
  destruct (shapes_run sn shapes (fun x I => I)) as [[SO (p & RS)]|[SO RS]]; rewrite RS; cbn [rbind]; [|right; left; auto].
  match goal with |- context [new_model ?s] => set (sch := s) end. assert (CI := clear_iff _ _ sch RS eq_refl eq_refl).
  destruct (new_model sch) as [m|e| |] eqn:NM.
  - left. split; [split; [exact OS|split; [exact SO|]]|eauto]. apply CI. exact (proj2 (proj2 (new_model_iff sch)) m NM).
  - right. right. split; [|reflexivity]. right. split; [exact SO|]. intros NC. apply CI in NC. destruct (proj1 (new_model_iff sch) NC) as (m & M). congruence.
  - right. right. split; [|reflexivity]. right. split; [exact SO|]. intros NC. apply CI in NC. destruct (proj1 (new_model_iff sch) NC) as (m & M). congruence.
  - right. right. split; [|reflexivity]. right. split; [exact SO|]. intros NC. apply CI in NC. destruct (proj1 (new_model_iff sch) NC) as (m & M). congruence.
Qed.
Lemma readable_iff name nspace service base : (exists m, smithy_import L name nspace service base a = Ok m) <-> smithy_readable a service.
Proof.
  destruct (import_outcome name nspace service base) as [[H X]|[(A & B & X)|[H X]]]; [tauto| |].
  - rewrite X. split; [intros (m & E); discriminate E|]. intros (_ & S & _). contradiction.
  - rewrite X. split; [intros (m & E); discriminate E|]. intros (O & S & N). tauto.
Qed.
Lemma crash_iff name nspace service base : smithy_import L name nspace service base a = Panic <-> one_service a service /\ ~ shapes_ok a.
Proof.
  destruct (import_outcome name nspace service base) as [[(O & S & N) (m & X)]|[(A & B & X)|[H X]]]; rewrite X.
  - split; [discriminate|tauto].
  - tauto.
  - split; [discriminate|]. intros [O NS]. tauto.
Qed.
End Docs.
