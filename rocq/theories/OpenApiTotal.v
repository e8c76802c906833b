(** When the OpenAPI export succeeds. *)
From Verif Require Import GoStr Outcome Value Schema Model SpecModel ModelFacts SpecPV SpecMisc SpecGen OpenApi SpecOpenApi OpenApiFacts.

Section T.
Context (f64 : decimal -> decimal) (sch : schema) (m : model) (Hm : new_model sch = Ok m).
Notation schema_at := (oas_schema f64 m).

Definition go_fields (fuel : nat) := fix go (fs : list fielddef) (acc : list (string * oas)) : result unit (list (string * oas)) :=
  match fs with [] => Ok acc | f :: r => s <- schema_at fuel (fd_spec f) "" ;; go r (put (fd_name f) s acc) end.
Lemma schema_mono : forall fuel fuel' ts name s, fuel <= fuel' -> schema_at fuel ts name = Ok s -> schema_at fuel' ts name = Ok s.
Proof.
  induction fuel as [|fuel IH]; intros fuel' ts name s L H; [discriminate|]. destruct fuel' as [|fuel']; [lia|]. assert (L' : fuel <= fuel') by lia.
  cbn [oas_schema] in *.
  destruct (ts_type ts =?s "Bool"); [exact H|]. destruct (str_mem (ts_type ts) number_types); [exact H|].
  destruct (ts_type ts =?s "Bytes"); [exact H|]. destruct (ts_type ts =?s "String"); [exact H|].
  destruct (ts_type ts =?s "Timestamp"); [exact H|]. destruct (ts_type ts =?s "UnitValue"); [exact H|].
  destruct (ts_type ts =?s "UUID"); [exact H|]. destruct (ts_type ts =?s "Enum"); [exact H|].
  destruct (ts_type ts =?s "Array").
  { destruct (find_type m (ts_items ts)) as [td|]; [|exact H]. apply rbind_Ok in H. destruct H as (i & H & E).
    rewrite (IH _ _ _ _ L' H). exact E. }
  destruct (ts_type ts =?s "Map").
  { destruct (find_type m (ts_items ts)) as [td|]; [|exact H]. apply rbind_Ok in H. destruct H as (i & H & E).
    rewrite (IH _ _ _ _ L' H). exact E. }
  destruct (ts_type ts =?s "Struct"); [|exact H]. destruct (negb (name =?s "")); [exact H|].
  apply rbind_Ok in H. destruct H as (ps & H & E). fold (go_fields fuel) in H. fold (go_fields fuel').
  assert (G : forall fs acc, go_fields fuel fs acc = Ok ps -> go_fields fuel' fs acc = Ok ps).
  { clear -IH L'. induction fs as [|f fs G]; intros acc H; [exact H|]. cbn [go_fields] in *. apply rbind_Ok in H. destruct H as (s & S & H).
    rewrite (IH _ _ _ _ L' S). cbn [rbind]. apply G. exact H. }
  rewrite (G _ _ H). exact E.
Qed.
Lemma not3 t : (t =?s "Array") = false -> (t =?s "Map") = false -> (t =?s "Struct") = false -> ~ In t ["Array"; "Map"; "Struct"].
Proof. intros A B C [<-|[<-|[<-|[]]]]; discriminate. Qed.
Lemma schema_exportable : forall fuel ts name s, schema_at fuel ts name = Ok s -> exportable sch ts name.
Proof.
  induction fuel as [|fuel IH]; intros ts name s H; [discriminate|]. cbn [oas_schema] in H.
  destruct (ts_type ts =?s "Bool") eqn:E1; [apply seqb_eq in E1; apply ex_leaf; rewrite E1; simpl; intuition discriminate|].
  destruct (str_mem (ts_type ts) number_types) eqn:E2.
  { apply str_mem_In in E2. apply ex_leaf; [simpl in *; intros X; repeat (destruct E2 as [E2|E2]; [rewrite <- E2 in X; intuition discriminate|]); exact E2|].
    intros [X Y]. rewrite X in H. destruct (name =?s "") eqn:N; [apply seqb_eq in N; contradiction|discriminate]. }
  destruct (ts_type ts =?s "Array") eqn:E9.
  { apply seqb_eq in E9. rewrite E9 in H. cbn in H. destruct (find_type m (ts_items ts)) as [td|] eqn:F; [|discriminate].
    apply rbind_Ok in H. destruct H as (i & H & _). eapply ex_array; [exact E9| |eapply IH; exact H].
    exists td. split; [apply (find_type_spec _ _ Hm); exact F|reflexivity]. }
  destruct (ts_type ts =?s "Map") eqn:E10.
  { apply seqb_eq in E10. rewrite E10 in H. cbn in H. destruct (find_type m (ts_items ts)) as [td|] eqn:F; [|discriminate].
    apply rbind_Ok in H. destruct H as (i & H & _). eapply ex_map; [exact E10| |eapply IH; exact H].
    exists td. split; [apply (find_type_spec _ _ Hm); exact F|reflexivity]. }
  destruct (ts_type ts =?s "Struct") eqn:E11.
  { apply seqb_eq in E11. rewrite E11 in H. cbn in H. destruct (name =?s "") eqn:N.
    - apply seqb_eq in N. subst name. apply ex_struct; [exact E11|]. cbn [negb] in H. apply rbind_Ok in H. destruct H as (ps & H & _).
      fold (go_fields fuel) in H. revert ps H. generalize (@nil (string * oas)). clear -IH. induction (ts_fields ts) as [|f fs G]; intros acc ps H x I; [destruct I|].
      cbn [go_fields] in H. apply rbind_Ok in H. destruct H as (s & S & H). destruct I as [<-|I]; [eapply IH; exact S|]. eapply G; eassumption.
    - apply ex_named; [exact E11|]. intros ->. discriminate. }
  apply ex_leaf; [apply not3; assumption|]. intros [X _]. rewrite X in E2. discriminate.
Qed.
Lemma max_fuel (fs : list typespec) name : (forall ts, In ts fs -> exists fuel s, schema_at fuel ts name = Ok s) ->
  exists fuel, forall fuel' ts, fuel <= fuel' -> In ts fs -> exists s, schema_at fuel' ts name = Ok s.
Proof.
  induction fs as [|x fs IH]; intros H; [exists 0; intros ? ? _ []|].
  destruct (H x (or_introl eq_refl)) as (n & s & S). destruct (IH (fun ts I => H ts (or_intror I))) as (k & K). exists (Nat.max n k).
  intros fuel' ts L [<-|I]; [exists s; eapply schema_mono; [|exact S]; lia|apply K; [lia|exact I]].
Qed.
Lemma go_fields_total fuel : forall fs acc, (forall f, In f fs -> exists s, schema_at fuel (fd_spec f) "" = Ok s) -> exists ps, go_fields fuel fs acc = Ok ps.
Proof.
  induction fs as [|f fs IH]; intros acc H; [exists acc; reflexivity|]. cbn [go_fields].
  destruct (H f (or_introl eq_refl)) as (s & ->). cbn [rbind]. apply IH. intros x I. apply H. right. exact I.
Qed.
Lemma exportable_schema ts name : exportable sch ts name -> exists fuel s, schema_at fuel ts name = Ok s.
Proof.
  intros H. induction H as [ts name N F|ts name K N|ts name its K D E (fuel & s & IH)|ts name its K D E (fuel & s & IH)|ts K E IH].
  - exists 1. cbn [oas_schema].
    destruct (ts_type ts =?s "Bool"); [eexists; reflexivity|].
    destruct (str_mem (ts_type ts) number_types).
    { destruct ((ts_type ts =?s "Float64") && negb (name =?s ""))%bool eqn:X; [|eexists; reflexivity]. exfalso. apply F.
      apply andb_true_iff in X. destruct X as [X Y]. apply seqb_eq in X. split; [exact X|]. intros ->. discriminate. }
    destruct (ts_type ts =?s "Bytes"); [eexists; reflexivity|]. destruct (ts_type ts =?s "String"); [eexists; reflexivity|].
    destruct (ts_type ts =?s "Timestamp"); [eexists; reflexivity|]. destruct (ts_type ts =?s "UnitValue"); [eexists; reflexivity|].
    destruct (ts_type ts =?s "UUID"); [eexists; reflexivity|]. destruct (ts_type ts =?s "Enum"); [eexists; reflexivity|].
    destruct (ts_type ts =?s "Array") eqn:X; [apply seqb_eq in X; exfalso; apply N; rewrite X; simpl; tauto|].
    destruct (ts_type ts =?s "Map") eqn:Y; [apply seqb_eq in Y; exfalso; apply N; rewrite Y; simpl; tauto|].
    destruct (ts_type ts =?s "Struct") eqn:Z; [apply seqb_eq in Z; exfalso; apply N; rewrite Z; simpl; tauto|].
    eexists. reflexivity.
  - exists 1. cbn [oas_schema]. rewrite K. cbn. destruct (name =?s "") eqn:X; [apply seqb_eq in X; contradiction|]. eexists. reflexivity.
  - exists (S fuel). cbn [oas_schema]. rewrite K. cbn. destruct D as (td & D & <-). apply (find_type_spec _ _ Hm) in D. rewrite D, IH. eexists. reflexivity.
  - exists (S fuel). cbn [oas_schema]. rewrite K. cbn. destruct D as (td & D & <-). apply (find_type_spec _ _ Hm) in D. rewrite D, IH. eexists. reflexivity.
  - destruct (max_fuel (map fd_spec (ts_fields ts)) "") as (fuel & F).
    { intros x I. apply in_map_iff in I. destruct I as (f & <- & I). apply IH. exact I. }
    exists (S fuel). cbn [oas_schema]. rewrite K. cbn. fold (go_fields fuel).
    destruct (go_fields_total fuel (ts_fields ts) []) as (ps & ->); [|eexists; reflexivity].
    intros f I. apply F; [lia|]. apply in_map. exact I.
Qed.
(** [good]: succeeds with enough fuel, whatever the fuel *)
Definition good {A} (g : nat -> result unit A) : Prop := exists fuel, forall fuel', fuel <= fuel' -> exists a, g fuel' = Ok a.
Lemma schema_good ts name : exportable sch ts name -> good (fun fuel => schema_at fuel ts name).
Proof. intros H. apply exportable_schema in H. destruct H as (n & s & S). exists n. intros k L. exists s. eapply schema_mono; eassumption. Qed.
Lemma good_bind {A B} (g : nat -> result unit A) (k : nat -> A -> result unit B) :
  good g -> (exists n, forall fuel a, n <= fuel -> g fuel = Ok a -> exists b, k fuel a = Ok b) -> good (fun fuel => a <- g fuel ;; k fuel a).
Proof.
  intros (n & G) (n' & K). exists (Nat.max n n'). intros fuel L. destruct (G fuel) as (a & E); [lia|].
  destruct (K fuel a) as (b & F); [lia|exact E|]. exists b. rewrite E. exact F.
Qed.
Lemma fields_good fs : (forall f, In f fs -> exportable sch (fd_spec f) "") ->
  exists n, forall fuel, n <= fuel -> forall req ps, exists r, export_fields f64 m fuel fs req ps = Ok r.
Proof.
  induction fs as [|f fs IH]; intros H; [exists 0; intros; eexists; reflexivity|].
  destruct (IH (fun x I => H x (or_intror I))) as (n & N). destruct (schema_good _ _ (H f (or_introl eq_refl))) as (k & K).
  exists (Nat.max n k). intros fuel L req ps. cbn [export_fields]. destruct (K fuel) as (s & ->); [lia|]. cbn [rbind]. apply N. lia.
Qed.
Lemma fields_exportable fuel : forall fs req ps r, export_fields f64 m fuel fs req ps = Ok r -> forall f, In f fs -> exportable sch (fd_spec f) "".
Proof.
  induction fs as [|f fs IH]; intros req ps r H x I; [destruct I|]. cbn [export_fields] in H. apply rbind_Ok in H. destruct H as (s & S & H).
  destruct I as [<-|I]; [eapply schema_exportable; exact S|eapply IH; eassumption].
Qed.
Lemma string_good td fmt : In (ts_type (td_spec td)) ["String"; "UUID"; "Timestamp"] -> good (fun fuel => export_string f64 m fuel td fmt).
Proof.
  intros K. exists 1. intros fuel L. destruct fuel as [|fuel]; [lia|]. unfold export_string.
  destruct K as [K|[K|[K|[]]]]; cbn [oas_schema]; rewrite <- K; cbn; eexists; reflexivity.
Qed.
Lemma typedef_good td : exportable_def sch td -> good (fun fuel => export_typedef f64 m fuel td).
Proof.
  intros H. unfold export_typedef. destruct H as [H|[H|[H X]]].
  - destruct H as [H|[H|[H|[H|[H|[H|[]]]]]]]; rewrite <- H; cbn.
    + apply string_good. rewrite <- H. simpl. tauto.
    + exists 0. intros. eexists. reflexivity.
    + exists 0. intros. eexists. reflexivity.
    + apply string_good. rewrite <- H. simpl. tauto.
    + exists 0. intros. eexists. reflexivity.
    + apply string_good. rewrite <- H. simpl. tauto.
  - exists 0. intros fuel _. unfold number_kind in H. simpl in H.
    repeat (destruct H as [H|H]; [rewrite <- H; cbn; eexists; reflexivity|]). destruct H.
  - inversion X as [? ? N _|? ? _ N|? ? its K D E|? ? its K D E|? K E]; subst.
    + contradiction.
    + congruence.
    + rewrite K. cbn. unfold export_array. destruct D as (td' & D & <-). apply (find_type_spec _ _ Hm) in D. rewrite D.
      apply (good_bind (fun fuel => schema_at fuel (td_spec td') (ts_items (td_spec td)))); [apply schema_good; exact E|exists 0; intros; eexists; reflexivity].
    + rewrite K. cbn. unfold export_map. destruct D as (td' & D & <-). apply (find_type_spec _ _ Hm) in D. rewrite D.
      apply (good_bind (fun fuel => schema_at fuel (td_spec td') "")); [apply schema_good; exact E|exists 0; intros; eexists; reflexivity].
    + rewrite K. cbn. unfold export_struct. destruct (fields_good _ E) as (n & N). exists n. intros fuel L. destruct (N fuel L [] []) as ([a b] & ->). eexists. reflexivity.
Qed.
Lemma typedef_exportable fuel td s : export_typedef f64 m fuel td = Ok s -> exportable_def sch td.
Proof.
  unfold export_typedef, exportable_def. intros H.
  destruct (ts_type (td_spec td) =?s "Struct") eqn:E1.
  { apply seqb_eq in E1. right. right. rewrite E1. split; [simpl; tauto|]. unfold export_struct in H. apply rbind_Ok in H. destruct H as (r & H & _).
    apply ex_struct; [exact E1|]. eapply fields_exportable. exact H. }
  destruct (ts_type (td_spec td) =?s "Array") eqn:E2.
  { apply seqb_eq in E2. right. right. rewrite E2. split; [simpl; tauto|]. unfold export_array in H. destruct (find_type m _) as [td'|] eqn:F; [|discriminate].
    apply rbind_Ok in H. destruct H as (r & H & _). eapply ex_array; [exact E2| |eapply schema_exportable; exact H]. exists td'. split; [apply (find_type_spec _ _ Hm); exact F|reflexivity]. }
  destruct (ts_type (td_spec td) =?s "Map") eqn:E3.
  { apply seqb_eq in E3. right. right. rewrite E3. split; [simpl; tauto|]. unfold export_map in H. destruct (find_type m _) as [td'|] eqn:F; [|discriminate].
    apply rbind_Ok in H. destruct H as (r & H & _). eapply ex_map; [exact E3| |eapply schema_exportable; exact H]. exists td'. split; [apply (find_type_spec _ _ Hm); exact F|reflexivity]. }
  destruct (ts_type (td_spec td) =?s "String") eqn:E4; [apply seqb_eq in E4; rewrite E4; simpl; tauto|].
  destruct (ts_type (td_spec td) =?s "Bool") eqn:E5; [apply seqb_eq in E5; rewrite E5; simpl; tauto|].
  destruct (ts_type (td_spec td) =?s "Enum") eqn:E6; [apply seqb_eq in E6; rewrite E6; simpl; tauto|].
  destruct (str_mem _ number_types) eqn:E7; [apply str_mem_In in E7; right; left; exact E7|].
  destruct (ts_type (td_spec td) =?s "UUID") eqn:E8; [apply seqb_eq in E8; rewrite E8; simpl; tauto|].
  destruct (ts_type (td_spec td) =?s "Union") eqn:E9; [apply seqb_eq in E9; rewrite E9; simpl; tauto|].
  destruct (ts_type (td_spec td) =?s "Timestamp") eqn:E10; [apply seqb_eq in E10; rewrite E10; simpl; tauto|]. discriminate.
Qed.
Lemma types_good tds : (forall td, In td tds -> exportable_def sch td) ->
  exists n, forall fuel, n <= fuel -> forall acc, exists ss, export_types f64 m fuel tds acc = Ok ss.
Proof.
  induction tds as [|td tds IH]; intros H; [exists 0; intros; eexists; reflexivity|].
  destruct (IH (fun x I => H x (or_intror I))) as (n & N). destruct (typedef_good _ (H td (or_introl eq_refl))) as (k & K).
  exists (Nat.max n k). intros fuel L acc. cbn [export_types]. destruct (K fuel) as (s & ->); [lia|]. cbn [rbind]. apply N. lia.
Qed.
Lemma types_exportable fuel : forall tds acc ss, export_types f64 m fuel tds acc = Ok ss -> forall td, In td tds -> exportable_def sch td.
Proof.
  induction tds as [|td tds IH]; intros acc ss H x I; [destruct I|]. cbn [export_types] in H. apply rbind_Ok in H. destruct H as (s & S & H).
  destruct I as [<-|I]; [eapply typedef_exportable; exact S|eapply IH; eassumption].
Qed.
Lemma inputs_good ins : (forall p, In p ins -> exportable sch (fd_spec (ps_field p)) "") ->
  exists n, forall fuel, n <= fuel -> forall ps body, exists r, oas_inputs f64 m fuel ins ps body = Ok r.
Proof.
  induction ins as [|p ins IH]; intros H; [exists 0; intros; eexists; reflexivity|].
  destruct (IH (fun x I => H x (or_intror I))) as (n & N). destruct (schema_good _ _ (H p (or_introl eq_refl))) as (k & K).
  exists (Nat.max n k). intros fuel L ps body. cbn [oas_inputs]. destruct (K fuel) as (s & ->); [lia|]. cbn [rbind].
  destruct (ps_path p); [apply N; lia|]. destruct (negb _); [apply N; lia|]. destruct (negb _); apply N; lia.
Qed.
Lemma inputs_exportable fuel : forall ins ps body r, oas_inputs f64 m fuel ins ps body = Ok r -> forall p, In p ins -> exportable sch (fd_spec (ps_field p)) "".
Proof.
  induction ins as [|p ins IH]; intros ps body r H x I; [destruct I|]. cbn [oas_inputs] in H. apply rbind_Ok in H. destruct H as (s & S & H).
  destruct I as [<-|I]; [eapply schema_exportable; exact S|]. destruct (ps_path p); [eapply IH; eassumption|].
  destruct (negb _); [eapply IH; eassumption|]. destruct (negb _); eapply IH; eassumption.
Qed.
Lemma outputs_good outs : (forall p, In p outs -> exportable sch (fd_spec (ps_field p)) "") ->
  exists n, forall fuel, n <= fuel -> forall ps body, exists r, oas_outputs f64 m fuel outs ps body = Ok r.
Proof.
  induction outs as [|p ins IH]; intros H; [exists 0; intros; eexists; reflexivity|].
  destruct (IH (fun x I => H x (or_intror I))) as (n & N). destruct (schema_good _ _ (H p (or_introl eq_refl))) as (k & K).
  exists (Nat.max n k). intros fuel L ps body. cbn [oas_outputs]. destruct (K fuel) as (s & ->); [lia|]. cbn [rbind].
  destruct (negb _); apply N; lia.
Qed.
Lemma outputs_exportable fuel : forall outs hs body r, oas_outputs f64 m fuel outs hs body = Ok r -> forall p, In p outs -> exportable sch (fd_spec (ps_field p)) "".
Proof.
  induction outs as [|p ins IH]; intros ps body r H x I; [destruct I|]. cbn [oas_outputs] in H. apply rbind_Ok in H. destruct H as (s & S & H).
  destruct I as [<-|I]; [eapply schema_exportable; exact S|]. destruct (negb _); eapply IH; eassumption.
Qed.
Lemma operation_good h : exportable_http sch h -> good (fun fuel => oas_operation f64 m fuel h).
Proof.
  intros (HI & e & HE & HO). destruct (inputs_good _ HI) as (n & N). destruct (outputs_good _ HO) as (k & K).
  exists (Nat.max n k). intros fuel L. unfold oas_operation. destruct (N fuel ltac:(lia) [] None) as ([ps body] & ->). cbn [rbind]. rewrite HE.
  destruct (K fuel ltac:(lia) [] None) as ([hs ob] & ->). cbn [rbind]. eexists. reflexivity.
Qed.
Lemma operation_exportable fuel h op : oas_operation f64 m fuel h = Ok op -> exportable_http sch h.
Proof.
  unfold oas_operation. intros H. apply rbind_Ok in H. destruct H as ([ps body] & HI & H). destruct (h_expected h) as [e|] eqn:HE; [|discriminate].
  apply rbind_Ok in H. destruct H as ([hs ob] & HO & _). split; [eapply inputs_exportable; exact HI|]. exists e. split; [exact HE|]. eapply outputs_exportable. exact HO.
Qed.
(** no action of the list is already there *)
Definition free_for (hs : list httpdef) (ps : list (string * pathitem)) : Prop :=
  forall h op, In h hs -> In (h_method h) oas_methods -> ~ paths_op ps (oas_path m h) (h_method h) op.
Fixpoint distinct (hs : list httpdef) : Prop :=
  match hs with
  | [] => True
  | h :: r => (forall h', In h' r -> In (h_method h) oas_methods -> h_method h' = h_method h -> oas_path m h' <> oas_path m h) /\ distinct r
  end.
Lemma distinct_clash hs : distinct hs <-> no_clash sch hs.
Proof.
  assert (PP : forall h p, oas_path m h = p <-> path_part (sc_base sch +++ h_path h) p).
  { intros h p. unfold oas_path. rewrite (proj1 (new_model_inv _ _ Hm)). split; [intros <-; apply cut_query_part|apply cut_query_only]. }
  induction hs as [|h hs IH]; [simpl; tauto|]. cbn [distinct no_clash]. rewrite IH. split; intros [A B]; (split; [|exact B]).
  - intros h' p I K E P Q. apply PP in P, Q. apply (A h' I K E). congruence.
  - intros h' I K E P. apply (A h' (oas_path m h) I K E); [apply PP; reflexivity|apply PP; exact P].
Qed.
Lemma http_good hs : (forall h, In h hs -> exportable_http sch h) -> distinct hs ->
  exists n, forall fuel, n <= fuel -> forall ps, paths_wf ps -> free_for hs ps -> exists r, export_http f64 m fuel hs ps = Ok r.
Proof.
  induction hs as [|h hs IH]; intros H D; [exists 0; intros; eexists; reflexivity|]. destruct D as [D D'].
  destruct (IH (fun x I => H x (or_intror I)) D') as (n & N). destruct (operation_good _ (H h (or_introl eq_refl))) as (k & K).
  exists (Nat.max n k). intros fuel L ps W F. cbn [export_http]. destruct (old_item (oas_path m h) ps W) as [NP OP].
  set (pi := match get (oas_path m h) ps with Some pi => pi | None => [] end) in *.
  destruct (K fuel ltac:(lia)) as (op & ->). cbn [rbind]. destruct (str_mem (h_method h) oas_methods) eqn:SM.
  - apply str_mem_In in SM. destruct (get (h_method h) pi) as [o|] eqn:G.
    { exfalso. apply (get_In _ _ _ NP) in G. apply OP in G. exact (F h o (or_introl eq_refl) SM G). }
    destruct (put_item (oas_path m h) (put (h_method h) op pi) ps W (put_nodup _ _ _ NP)) as [W' P']. apply N; [lia|exact W'|].
    intros h' o I M X. apply P' in X. destruct X as [[E X]|[_ X]]; [|exact (F h' o (or_intror I) M X)].
    apply (put_In _ _ _ _ _ NP) in X. destruct X as [[E' _]|[_ X]]; [exact (D h' I SM E' E)|]. apply OP in X. rewrite <- E in X. exact (F h' o (or_intror I) M X).
  - destruct (put_item (oas_path m h) pi ps W NP) as [W' P']. apply N; [lia|exact W'|].
    intros h' o I M X. apply P' in X. destruct X as [[E X]|[_ X]]; [|exact (F h' o (or_intror I) M X)].
    apply OP in X. rewrite <- E in X. exact (F h' o (or_intror I) M X).
Qed.
Lemma http_exportable fuel : forall hs ps r, paths_wf ps -> export_http f64 m fuel hs ps = Ok r ->
  (forall h, In h hs -> exportable_http sch h) /\ distinct hs /\ free_for hs ps.
Proof.
  induction hs as [|h hs IH]; intros ps r W H; [split; [intros h []|split; [exact I|intros h o []]]|]. cbn [export_http] in H.
  destruct (old_item (oas_path m h) ps W) as [NP OP]. set (pi := match get (oas_path m h) ps with Some pi => pi | None => [] end) in *.
  destruct (str_mem (h_method h) oas_methods) eqn:SM.
  - destruct (get (h_method h) pi) as [o|] eqn:G; [discriminate|]. apply get_None in G. apply rbind_Ok in H. destruct H as (op & HO & H).
    destruct (put_item (oas_path m h) (put (h_method h) op pi) ps W (put_nodup _ _ _ NP)) as [W' P'].
    destruct (IH _ _ W' H) as (A & B & C). split; [|split; [split; [|exact B]|]].
    + intros x [<-|I]; [eapply operation_exportable; exact HO|exact (A x I)].
    + intros h' I M E P. apply (C h' op I); [rewrite E; exact M|]. apply P'. left. split; [exact P|]. apply (put_In _ _ _ _ _ NP). left. auto.
    + intros x o [<-|I] M X.
      * apply G. apply OP in X. apply (in_map fst) in X. exact X.
      * apply (C x o I M). apply P'. destruct (string_dec (oas_path m x) (oas_path m h)) as [E|NE]; [|right; auto]. left. split; [exact E|].
        apply (put_In _ _ _ _ _ NP). destruct (string_dec (h_method x) (h_method h)) as [E'|NE']; [|right; split; [exact NE'|apply OP; rewrite <- E; exact X]].
        exfalso. apply G. rewrite E, E' in X. apply OP in X. apply (in_map fst) in X. exact X.
  - apply rbind_Ok in H. destruct H as (op & HO & H). destruct (put_item (oas_path m h) pi ps W NP) as [W' P'].
    assert (NM : ~ In (h_method h) oas_methods) by (intros X; apply str_mem_In in X; congruence).
    destruct (IH _ _ W' H) as (A & B & C). split; [|split; [split; [|exact B]|]].
    + intros x [<-|I]; [eapply operation_exportable; exact HO|exact (A x I)].
    + intros; contradiction.
    + intros x o [<-|I] M X; [contradiction|]. apply (C x o I M). apply P'.
      destruct (string_dec (oas_path m x) (oas_path m h)) as [E|NE]; [|right; auto]. left. split; [exact E|]. apply OP. rewrite <- E. exact X.
Qed.
Lemma export_iff : (exists n, forall fuel, n <= fuel -> exists doc, export_oas f64 m fuel = Ok doc) <->
  (forall td, In td (sc_types sch) -> exportable_def sch td) /\ (forall h, In h (sc_http sch) -> exportable_http sch h) /\ no_clash sch (sc_http sch).
Proof.
  unfold export_oas. rewrite (proj1 (new_model_inv _ _ Hm)). split.
  - intros (n & N). destruct (N n (le_n _)) as (doc & H). apply rbind_Ok in H. destruct H as (ss & HS & H). apply rbind_Ok in H. destruct H as (ps & HP & _).
    split; [eapply types_exportable; exact HS|]. destruct (http_exportable _ _ _ _ paths_wf_nil HP) as (A & B & _). split; [exact A|]. apply distinct_clash. exact B.
  - intros (A & B & C). destruct (types_good _ A) as (n & N). destruct (http_good _ B (proj2 (distinct_clash _) C)) as (k & K).
    exists (Nat.max n k). intros fuel L. destruct (N fuel ltac:(lia) []) as (ss & ->). cbn [rbind].
    destruct (K fuel ltac:(lia) [] paths_wf_nil) as (ps & ->); [intros h o _ _ (pi & [] & _)|]. cbn [rbind]. eexists. reflexivity.
Qed.
Lemma export_some : (exists fuel doc, export_oas f64 m fuel = Ok doc) <-> (exists n, forall fuel, n <= fuel -> exists doc, export_oas f64 m fuel = Ok doc).
Proof.
  split; [|intros (n & N); exists n; apply N; lia]. intros (fuel & doc & H). apply export_iff. unfold export_oas in H. rewrite (proj1 (new_model_inv _ _ Hm)) in H.
  apply rbind_Ok in H. destruct H as (ss & HS & H). apply rbind_Ok in H. destruct H as (ps & HP & _).
  split; [eapply types_exportable; exact HS|]. destruct (http_exportable _ _ _ _ paths_wf_nil HP) as (A & B & _). split; [exact A|]. apply distinct_clash. exact B.
Qed.
(** ** Struct definitions, out and back *)
Lemma fields_exact fuel : forall fs req ps req' ps', NoDup (map fst ps ++ map fd_name fs) ->
  export_fields f64 m fuel fs req ps = Ok (req', ps') ->
  exists ss, Forall2 (fun f s => schema_at fuel (fd_spec f) "" = Ok s) fs ss /\ ps' = ps ++ combine (map fd_name fs) ss.
Proof.
  induction fs as [|f fs IH]; intros req ps req' ps' N H; cbn [export_fields] in H.
  - injection H as <- <-. exists []. split; [constructor|symmetry; apply app_nil_r].
  - apply rbind_Ok in H. destruct H as (s & S & H). assert (F : ~ In (fd_name f) (map fst ps)).
    { intros X. cbn [map] in N. apply NoDup_remove_2 in N. apply N. apply in_app_iff. auto. }
    rewrite (put_fresh _ _ _ F) in H. apply IH in H.
    + destruct H as (ss & A & ->). exists (s :: ss). split; [constructor; assumption|]. rewrite <- app_assoc. reflexivity.
    + rewrite map_app, <- app_assoc. exact N.
Qed.
Lemma ref_back n : oas_type_ref (oas_ref n) = n.
Proof.
  unfold oas_type_ref, oas_ref. cbn [o_ref]. assert (P : has_prefix schema_prefix (schema_prefix +++ n) = true) by (apply has_prefix_spec; exists n; reflexivity).
  rewrite P. replace (schema_prefix +++ n =?s "") with false by reflexivity. cbn [negb]. apply sdrop_append.
Qed.
Lemma field_back fuel ts s : survives sch ts -> schema_at fuel ts "" = Ok s ->
  exists ts', (if negb (oas_type_ref s =?s "") then Ok (ts_of (oas_type_ref s)) else convert_oas s) = Ok ts'
    /\ ts_type ts' = ts_type ts /\ (ts_type ts = "Array" -> ts_items ts' = ts_items ts).
Proof.
  intros V H. destruct fuel as [|fuel]; [discriminate|]. destruct V as [V|[[D NE]|[E V]]].
  - assert (K : ts_type ts <> "Array") by (intros X; rewrite X in V; simpl in V; intuition discriminate).
    assert (B : In (ts_type ts) oas_scalars) by (simpl in *; tauto).
    destruct (base_back f64 m _ _ _ B H) as (ts' & C & T).
    assert (R : oas_type_ref s = "").
    { cbn [oas_schema] in H. unfold num_schema in H. simpl in V.
      repeat (destruct V as [V|V]; [rewrite <- V in H; simpl in H; injection H as <-; reflexivity|]). destruct V. }
    rewrite R. cbn. exists ts'. split; [exact C|]. split; [|contradiction]. rewrite T. simpl in V.
    repeat (destruct V as [V|V]; [rewrite <- V; reflexivity|]). destruct V.
  - assert (NB := not_builtin sch m Hm _ D).
    assert (X : forall b, In b builtin_names -> (ts_type ts =?s b) = false).
    { intros b B. destruct (ts_type ts =?s b) eqn:Q; [|reflexivity]. apply seqb_eq in Q. rewrite Q in NB. contradiction. }
    assert (S : str_mem (ts_type ts) number_types = false).
    { unfold str_mem, number_types. cbn [existsb]. rewrite !X by (simpl; tauto). reflexivity. }
    cbn [oas_schema] in H. rewrite S in H. rewrite !X in H by (simpl; tauto). injection H as <-. rewrite ref_back.
    destruct (ts_type ts =?s "") eqn:Q; [apply seqb_eq in Q; contradiction|]. exists (ts_of (ts_type ts)). split; [reflexivity|]. split; [reflexivity|].
    intros A. exfalso. apply NB. rewrite A. simpl. tauto.
  - cbn [oas_schema] in H. rewrite E in H. cbn in H. destruct (find_type m (ts_items ts)) as [td|] eqn:F; [|discriminate].
    apply rbind_Ok in H. destruct H as (i & H & Q). injection Q as <-.
    change (oas_type_ref (oas_array "" i)) with "". cbn [convert_oas oas_array o_type o_items]. cbn -[convert_oas oas_type_ref ts_fill].
    destruct V as [V|(NE & its & D & K & DC)].
    + assert (DEF : td_spec td = ts_of (ts_items ts)).
      { apply (find_type_spec _ _ Hm) in F. destruct F as [[_ ->]|[I N]]; [reflexivity|]. exfalso. apply (not_builtin sch m Hm (ts_items ts)); [exists td; auto|].
        clear -V. simpl in *. tauto. }
      rewrite DEF in H. assert (FU : exists k, fuel = S k) by (destruct fuel as [|k]; [discriminate|exists k; reflexivity]). destruct FU as (k & ->).
      cbn [oas_schema] in H. unfold num_schema in H. simpl in V.
      repeat (destruct V as [V|V]; [rewrite <- V in H |- *; cbn in H; injection H as <-; eexists; split; [reflexivity|]; split; [exact (eq_sym E)|intros _; reflexivity]|]). destruct V.
    + destruct D as (td' & D & <-). apply (find_type_spec _ _ Hm) in D. rewrite D in F. injection F as ->.
      assert (FU : exists k, fuel = S k) by (destruct fuel as [|k]; [discriminate|exists k; reflexivity]). destruct FU as (k & ->).
      assert (R : i = oas_ref (ts_items ts)).
      { cbn [oas_schema] in H. destruct K as [K|K]; rewrite K in H; cbn in H; [|injection H as <-; reflexivity].
        destruct (ts_items ts =?s "") eqn:Q; [apply seqb_eq in Q; contradiction|]. cbn in H. injection H as <-. reflexivity. }
      subst i. eexists. split; [reflexivity|]. split; [exact (eq_sym E)|]. intros _. exact (ref_back (ts_items ts)).
Qed.
Lemma struct_back fuel doc td : export_oas f64 m fuel = Ok doc -> In td (sc_types sch) -> ts_type (td_spec td) = "Struct" ->
  NoDup (map fd_name (ts_fields (td_spec td))) -> (forall f, In f (ts_fields (td_spec td)) -> survives sch (fd_spec f)) ->
  exists s ts, In (td_name td, s) (od_schemas doc) /\ convert_oas s = Ok ts /\ ts_type ts = "Struct"
    /\ Forall2 same_field (ts_fields (td_spec td)) (ts_fields ts).
Proof.
  intros H I K N V. destruct (export_schemas f64 sch m Hm fuel doc H) as (L & T & _). destruct (T td I) as (s & S).
  assert (J : In (td_name td, s) (od_schemas doc)) by (apply L; exists td; auto).
  unfold export_typedef in S. rewrite K in S. simpl in S. unfold export_struct in S. apply rbind_Ok in S.
  destruct S as ([req ps] & F & E). injection E as <-.
  assert (F2 := F). apply (fields_required f64 m) in F2; [|constructor]. destruct F2 as (R & _). apply fields_exact in F; [|exact N]. destruct F as (ss & A & ->). cbn [app] in *.
  set (fs := ts_fields (td_spec td)) in *.
  assert (RQ : forall f, In f fs -> contains_string req (fd_name f) = fd_required f).
  { intros f If. unfold contains_string. destruct (fd_required f) eqn:Q.
    - apply str_mem_In. rewrite R. apply in_map. apply filter_In. auto.
    - destruct (str_mem (fd_name f) req) eqn:M; [|reflexivity]. apply str_mem_In in M. rewrite R in M. apply in_map_iff in M. destruct M as (g & E & G).
      apply filter_In in G. destruct G as [G GR]. assert (f = g); [|congruence]. clear -N If G E. induction fs as [|x l IH]; [destruct If|].
      cbn [map] in N. inversion N as [|? ? X N']; subst. destruct If as [->|If], G as [->|G]; [reflexivity| | |auto].
      + exfalso. apply X. rewrite <- E. apply in_map. exact G.
      + exfalso. apply X. rewrite E. apply in_map. exact If. }
  assert (C : exists gs, convert_oas (oas_object (td_comment td) (combine (map fd_name fs) ss) req) = Ok (ts_fill "Struct" "" None None None [] gs None None "")
              /\ Forall2 same_field fs gs).
  { cbn. clearbody fs. clear -A V RQ Hm.
    induction A as [|f s fs ss S A IH]; [exists []; split; [reflexivity|constructor]|].
    cbn [map combine]. destruct (field_back _ _ _ (V f (or_introl eq_refl)) S) as (ts' & E1 & E2 & E3). rewrite E1. cbn [rbind].
    destruct (IH (fun x X => V x (or_intror X)) (fun x X => RQ x (or_intror X))) as (gs & G & FA).
    apply rbind_Ok in G. destruct G as (gs' & G & E). injection E as <-. rewrite G. cbn [rbind]. eexists. split; [reflexivity|].
    constructor; [|exact FA]. split; [reflexivity|]. split; [cbn; apply RQ; left; reflexivity|]. split; [exact E2|exact E3]. }
  destruct C as (gs & C & FA). eexists _, _. split; [exact J|]. split; [exact C|]. split; [reflexivity|exact FA].
Qed.
End T.
