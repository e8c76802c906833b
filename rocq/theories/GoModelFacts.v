(** Facts about the generated Go file of types: uses of types, effects, text. *)
From Verif Require Import GoStr Outcome Value Schema Scalars Model Misc Generator Golang GoModel SpecTime SpecMisc SpecModel SpecPV SpecTrace SpecGo
  ModelFacts PVFacts TraceFacts.
From Coq Require Import Permutation.

Lemma nl_line s : s +++ nl = line s. Proof. reflexivity. Qed.
Lemma each_app {A} (f : A -> string) a b : each f (a ++ b) = each f a +++ each f b.
Proof. induction a as [|x a IH]; [reflexivity|]. cbn [app each fold_right]. unfold each in IH. rewrite IH, append_assoc. reflexivity. Qed.
Lemma concat_each {A} (f : A -> string) l : String.concat "" (map f l) = each f l.
Proof.
  induction l as [|x l IH]; [reflexivity|]. cbn [map each fold_right]. unfold each in IH. rewrite <- IH. cbn [String.concat].
  destruct (map f l) eqn:E; [destruct l; [|discriminate E]; cbn; now rewrite append_nil_r|reflexivity].
Qed.
Lemma go_capitalize_spec n s : go_capitalize n = Ok s <-> n <> "" /\ large_first n s.
Proof.
  destruct n as [|c r]; cbn [go_capitalize].
  - split; [discriminate|]. intros [H _]. congruence.
  - rewrite large_first_iff. split; [intros H|intros [_ H]].
    + split; [discriminate|]. change (capitalize (String c r)) with (upper1 c +++ r). congruence.
    + change (capitalize (String c r)) with (upper1 c +++ r) in H. congruence.
Qed.
Lemma go_capitalize_panic n : go_capitalize n = Panic <-> n = "".
Proof. destruct n; cbn; split; congruence. Qed.

Section USE.
Context (sch : schema) (m : model) (Hm : new_model sch = Ok m) (rt : bool).
Lemma find_def n td : find_type m n = Some td -> defines sch n (td_spec td).
Proof. intros F. apply (find_type_defines sch m Hm). eauto. Qed.
Lemma find_none n : find_type m n = None <-> forall ts, ~ defines sch n ts.
Proof.
  split.
  - intros F ts D. apply (find_type_defines sch m Hm) in D as (td & G & _). congruence.
  - intros N. destruct (find_type m n) as [td|] eqn:F; [|reflexivity]. destruct (N _ (find_def _ _ F)).
Qed.
Lemma def_find n ts : defines sch n ts -> exists td, find_type m n = Some td /\ td_spec td = ts.
Proof. intros D. apply (find_type_defines sch m Hm). exact D. Qed.

Lemma basic_text n t : In (n, t) go_basic -> str_mem n ["Int8"; "Int16"; "Int32"; "Int64"; "Float32"; "Float64"; "Bool"; "String"] = true
  /\ go_uncapitalize n = Ok (type_text t).
Proof.
  intros I. cbn in I. repeat (destruct I as [I|I]; [injection I as <- <-; split; reflexivity|]). destruct I.
Qed.
Lemma basic_in n : str_mem n ["Int8"; "Int16"; "Int32"; "Int64"; "Float32"; "Float64"; "Bool"; "String"] = true -> exists t, In (n, t) go_basic.
Proof.
  intros I. apply str_mem_In in I. cbn in I. repeat (destruct I as [<- |I]; [eexists; cbn; tauto|]). destruct I.
Qed.
Lemma basic_fun n t t' : In (n, t) go_basic -> In (n, t') go_basic -> t = t'.
Proof.
  intros A B.
  clear -A B. cbn in A, B. repeat (destruct A as [A|A]; [injection A as <- <-; repeat (destruct B as [B|B]; [congruence|]); destruct B|]). destruct A.
Qed.
Lemma library_not_basic n : In n go_library -> ~ In n (map fst go_basic).
Proof. intros I J. cbn in I. repeat (destruct I as [<- |I]; [cbn in J; intuition discriminate|]). destruct I. Qed.
Lemma basic_mem_false n : ~ In n (map fst go_basic) -> str_mem n ["Int8"; "Int16"; "Int32"; "Int64"; "Float32"; "Float64"; "Bool"; "String"] = false.
Proof.
  intros N. destruct (str_mem n _) eqn:E; [|reflexivity]. destruct (basic_in _ E) as [t I]. destruct N. apply in_map_iff. exists (n, t). auto.
Qed.
Lemma library_mem_false n : ~ In n go_library -> str_mem n ["Decimal"; "Timestamp"; "UnitValue"] = false.
Proof. intros N. destruct (str_mem n _) eqn:E; [|reflexivity]. apply str_mem_In in E. contradiction. Qed.

Lemma native_use f : forall ts n s, native_type m rt f ts n = Ok s -> exists t, go_use sch rt ts n t /\ s = type_text t.
Proof.
  induction f as [|f IH]; [discriminate|]. intros ts n s. cbn [native_type].
  destruct (str_mem n _) eqn:E1.
  { destruct (basic_in _ E1) as [t I]. destruct (basic_text _ _ I) as [_ ->]. intros H. exists t. split; [now constructor|congruence]. }
  destruct (str_mem n ["Decimal"; _; _]) eqn:E2.
  { apply str_mem_In in E2. intros H. exists (GPtr (if rt then GLib n else GNamed n)). split; [now constructor|]. destruct rt; [assert (s = "*sadl." +++ n) by congruence|assert (s = "*" +++ n) by congruence]; subst s; reflexivity. }
  destruct (n =?s "Array") eqn:E3.
  { apply seqb_eq in E3. subst n. destruct (find_type m (ts_items ts)) as [td|] eqn:F; [|discriminate]. intros H.
    apply rbind_Ok in H as (x & H & E). apply IH in H as (t & U & ->). exists (GSlice t). split; [|cbn [type_text]; congruence].
    eapply gu_array; [apply find_def; exact F|exact U]. }
  destruct (n =?s "Map") eqn:E4.
  { apply seqb_eq in E4. subst n. destruct (find_type m (ts_items ts)) as [td|] eqn:F; [|discriminate].
    destruct (find_type m (ts_keys ts)) as [kd|] eqn:K; [|discriminate]. intros H.
    apply rbind_Ok in H as (x & H & E). apply rbind_Ok in E as (y & H' & E). apply IH in H as (k & U & ->). apply IH in H' as (t & V & ->).
    exists (GMap k t). split; [|cbn [type_text]; congruence]. eapply gu_map; [apply find_def; exact K|exact U|apply find_def; exact F|exact V]. }
  destruct (find_type m n) as [td|] eqn:F; [|discriminate].
  assert (P : plain_use n).
  { split; [|split; [|split]].
    - intros I. apply in_map_iff in I as ([a t] & <- & I). apply basic_text in I as [I _]. cbn [fst] in E1. congruence.
    - intros I. apply str_mem_In in I. unfold go_library in I. congruence.
    - apply seqb_neq. exact E3.
    - apply seqb_neq. exact E4. }
  destruct (ts_type (td_spec td) =?s "Struct") eqn:T; intros H.
  - apply seqb_eq in T. exists (GPtr (GNamed n)). split; [eapply gu_struct; eauto using find_def|cbn [type_text]; congruence].
  - apply seqb_neq in T. exists (GNamed n). split; [eapply gu_other; eauto using find_def|cbn [type_text]; congruence].
Qed.
Lemma builtin_def n ts : In n builtin_names -> defines sch n ts -> ts = ts_of n.
Proof.
  intros B (td & [[_ ->]|[I <-]] & <-); [reflexivity|]. destruct (new_model_inv _ _ Hm) as (_ & _ & _ & _ & C & _). destruct (C td I B).
Qed.
Lemma use_native ts n t : go_use sch rt ts n t -> forall f, n <> "Array" /\ n <> "Map" -> native_type m rt (S f) ts n = Ok (type_text t).
Proof.
  intros U f [NA NM]. destruct U as [ts n t I|ts n I|ts ti t D U|ts tk k ti t K U D V|ts n td P D T|ts n td P D T]; cbn [native_type].
  - destruct (basic_text _ _ I) as [-> ->]. reflexivity.
  - rewrite basic_mem_false by (apply library_not_basic; exact I).
    assert (E : str_mem n ["Decimal"; "Timestamp"; "UnitValue"] = true) by (apply str_mem_In; exact I). rewrite E. destruct rt; reflexivity.
  - congruence.
  - congruence.
  - destruct P as (P1 & P2 & P3 & P4). rewrite basic_mem_false, library_mem_false by assumption.
    rewrite (proj2 (seqb_neq n "Array") P3), (proj2 (seqb_neq n "Map") P4). destruct (def_find _ _ D) as (td' & -> & ->). rewrite T. reflexivity.
  - destruct P as (P1 & P2 & P3 & P4). rewrite basic_mem_false, library_mem_false by assumption.
    rewrite (proj2 (seqb_neq n "Array") P3), (proj2 (seqb_neq n "Map") P4). destruct (def_find _ _ D) as (td' & -> & ->).
    rewrite (proj2 (seqb_neq _ _) T). reflexivity.
Qed.
Lemma not_container s : {s <> "Array" /\ s <> "Map"} + {s = "Array" \/ s = "Map"}.
Proof. destruct (string_dec s "Array"); [right; auto|]. destruct (string_dec s "Map"); [right; auto|left; auto]. Qed.
(** a container whose parts are not containers *)
Lemma use_two ts n t : go_use sch rt ts n t -> forall f, (forall x, In x [ts_items ts; ts_keys ts] -> n = "Array" \/ n = "Map" -> x <> "Array" /\ x <> "Map") ->
  native_type m rt (S (S f)) ts n = Ok (type_text t).
Proof.
  intros U f N. destruct (not_container n) as [C|C]; [apply use_native; assumption|].
  destruct U as [ts n t I|ts n I|ts ti t D U|ts tk k ti t K U D V|ts n td P D T|ts n td P D T].
  - exfalso. cbn in I. destruct C as [-> | ->]; intuition discriminate.
  - exfalso. cbn in I. destruct C as [-> | ->]; intuition discriminate.
  - remember (S f) as g eqn:G. cbn [native_type]. cbv [str_mem]. cbn. destruct (def_find _ _ D) as (td & -> & ->). subst g.
    rewrite (use_native _ _ _ U) by (apply N; [cbn; auto|auto]). reflexivity.
  - remember (S f) as g eqn:G. cbn [native_type]. cbv [str_mem]. cbn. destruct (def_find _ _ D) as (td & -> & ->). destruct (def_find _ _ K) as (kd & -> & ->). subst g.
    rewrite (use_native _ _ _ U), (use_native _ _ _ V) by (apply N; [cbn; auto|auto]). reflexivity.
  - destruct P as (_ & _ & A & B). destruct C; contradiction.
  - destruct P as (_ & _ & A & B). destruct C; contradiction.
Qed.
Lemma container_def n ts : n = "Array" \/ n = "Map" -> defines sch n ts -> ts_items ts = "" /\ ts_keys ts = "".
Proof. intros C D. rewrite (builtin_def n ts) by (assumption || (destruct C as [-> | ->]; cbn; tauto)). split; reflexivity. Qed.
Lemma use_three ts n t : go_use sch rt ts n t -> forall f, native_type m rt (S (S (S f))) ts n = Ok (type_text t).
Proof.
  intros U f. destruct (not_container n) as [C|C]; [apply use_native; assumption|].
  assert (H : forall x tx tt, defines sch x tx -> go_use sch rt tx x tt -> native_type m rt (S (S f)) tx x = Ok (type_text tt)).
  { intros x tx tt D V. apply use_two; [exact V|]. intros y Iy Cx. destruct (container_def x tx Cx D) as [E1 E2].
    destruct Iy as [<- |[<- |[]]]; rewrite ?E1, ?E2; split; discriminate. }
  destruct U as [ts n t I|ts n I|ts ti t D U|ts tk k ti t K U D V|ts n td P D T|ts n td P D T].
  - exfalso. cbn in I. destruct C as [-> | ->]; intuition discriminate.
  - exfalso. cbn in I. destruct C as [-> | ->]; intuition discriminate.
  - remember (S (S f)) as g eqn:G. cbn [native_type]. cbv [str_mem]. cbn. destruct (def_find _ _ D) as (td & -> & <-).
    rewrite (H _ _ _ D U). reflexivity.
  - remember (S (S f)) as g eqn:G. cbn [native_type]. cbv [str_mem]. cbn. destruct (def_find _ _ D) as (td & -> & <-). destruct (def_find _ _ K) as (kd & -> & <-).
    rewrite (H _ _ _ K U), (H _ _ _ D V). reflexivity.
  - destruct P as (_ & _ & A & B). destruct C; contradiction.
  - destruct P as (_ & _ & A & B). destruct C; contradiction.
Qed.
Lemma use_fun ts n t : go_use sch rt ts n t -> forall t', go_use sch rt ts n t' -> t = t'.
Proof.
  induction 1 as [ts n t I|ts n I|ts ti t D U IH|ts tk k ti t K U IHk D V IH|ts n td P D T|ts n td P D T]; intros t' V'.
  - destruct V' as [ts n t' I'|ts n I'|ts ti' t' D' U'|ts tk' k' ti' t' K' U' D' V'|ts n td' P' D' T'|ts n td' P' D' T'].
    + eapply basic_fun; eassumption.
    + destruct (library_not_basic _ I'). apply in_map_iff. exists (n, t). auto.
    + cbn in I. intuition discriminate.
    + cbn in I. intuition discriminate.
    + destruct P' as [P' _]. destruct P'. apply in_map_iff. exists (n, t). auto.
    + destruct P' as [P' _]. destruct P'. apply in_map_iff. exists (n, t). auto.
  - inversion V' as [ts1 n1 t1 I1|ts1 n1 I1|ts1 ti1 t1 D1 U1|ts1 tk1 k1 ti1 t1 K1 U1 D1 V1|ts1 n1 td1 P1 D1 T1|ts1 n1 td1 P1 D1 T1]; subst.
    + destruct (library_not_basic _ I). apply in_map_iff. exists (n, t'). auto.
    + reflexivity.
    + cbn in I. intuition discriminate.
    + cbn in I. intuition discriminate.
    + destruct P1 as (_ & P1 & _). contradiction.
    + destruct P1 as (_ & P1 & _). contradiction.
  - inversion V' as [ts1 n1 t1 I1|ts1 n1 I1|ts1 ti1 t1 D1 U1|ts1 tk1 k1 ti1 t1 K1 U1 D1 V1|ts1 n1 td1 P1 D1 T1|ts1 n1 td1 P1 D1 T1]; subst.
    + cbn in I1. intuition discriminate.
    + cbn in I1. intuition discriminate.
    + f_equal. apply IH. rewrite (defines_fun sch m Hm _ _ _ D D1). exact U1.
    + destruct P1 as (_ & _ & P1 & _). congruence.
    + destruct P1 as (_ & _ & P1 & _). congruence.
  - inversion V' as [ts1 n1 t1 I1|ts1 n1 I1|ts1 ti1 t1 D1 U1|ts1 tk1 k1 ti1 t1 K1 U1 D1 V1|ts1 n1 td1 P1 D1 T1|ts1 n1 td1 P1 D1 T1]; subst.
    + cbn in I1. intuition discriminate.
    + cbn in I1. intuition discriminate.
    + f_equal; [apply IHk; rewrite (defines_fun sch m Hm _ _ _ K K1); exact U1|apply IH; rewrite (defines_fun sch m Hm _ _ _ D D1); exact V1].
    + destruct P1 as (_ & _ & _ & P1). congruence.
    + destruct P1 as (_ & _ & _ & P1). congruence.
  - destruct V' as [ts n t' I'|ts n I'|ts ti' t' D' U'|ts tk' k' ti' t' K' U' D' V'|ts n td' P' D' T'|ts n td' P' D' T'].
    + destruct P as [P _]. destruct P. apply in_map_iff. exists (n, t'). auto.
    + destruct P as (_ & P & _). contradiction.
    + destruct P as (_ & _ & P & _). congruence.
    + destruct P as (_ & _ & _ & P). congruence.
    + reflexivity.
    + rewrite (defines_fun sch m Hm _ _ _ D D') in T. contradiction.
  - destruct V' as [ts n t' I'|ts n I'|ts ti' t' D' U'|ts tk' k' ti' t' K' U' D' V'|ts n td' P' D' T'|ts n td' P' D' T'].
    + destruct P as [P _]. destruct P. apply in_map_iff. exists (n, t'). auto.
    + destruct P as (_ & P & _). contradiction.
    + destruct P as (_ & _ & P & _). congruence.
    + destruct P as (_ & _ & _ & P). congruence.
    + rewrite (defines_fun sch m Hm _ _ _ D D') in T. contradiction.
    + reflexivity.
Qed.
Lemma native_total f : forall ts n, native_type m rt f ts n = Panic \/ native_type m rt f ts n = OutOfFuel \/ exists s, native_type m rt f ts n = Ok s.
Proof.
  induction f as [|f IH]; intros ts n; [auto|]. cbn [native_type]. destruct (str_mem n _).
  { destruct n; cbn; eauto. }
  destruct (str_mem n _); [eauto|]. destruct (n =?s "Array").
  { destruct (find_type m (ts_items ts)) as [td|]; [|auto]. destruct (IH (td_spec td) (ts_items ts)) as [E|[E|[s E]]]; rewrite E; cbn; eauto. }
  destruct (n =?s "Map").
  { destruct (find_type m (ts_items ts)) as [td|]; [|auto]. destruct (find_type m (ts_keys ts)) as [kd|]; [|auto].
    destruct (IH (td_spec kd) (ts_keys ts)) as [E|[E|[s E]]]; rewrite E; cbn; eauto.
    destruct (IH (td_spec td) (ts_items ts)) as [E'|[E'|[s' E']]]; rewrite E'; cbn; eauto. }
  destruct (find_type m n); eauto.
Qed.
Lemma fuel_one f ts n : n <> "Array" /\ n <> "Map" -> native_type m rt (S f) ts n <> OutOfFuel.
Proof.
  intros [NA NM]. cbn [native_type]. destruct (str_mem n _); [destruct n; discriminate|]. destruct (str_mem n _); [discriminate|].
  rewrite (proj2 (seqb_neq n "Array") NA), (proj2 (seqb_neq n "Map") NM). destruct (find_type m n); discriminate.
Qed.
Lemma fuel_step f ts n : (forall x td, In x [ts_items ts; ts_keys ts] -> find_type m x = Some td -> n = "Array" \/ n = "Map" -> native_type m rt f (td_spec td) x <> OutOfFuel) ->
  native_type m rt (S f) ts n <> OutOfFuel.
Proof.
  intros H. destruct (not_container n) as [C|C]; [apply fuel_one; exact C|]. destruct C as [-> | ->]; cbn [native_type]; cbv [str_mem]; cbn.
  - destruct (find_type m (ts_items ts)) as [td|] eqn:F; [|discriminate]. specialize (H _ _ (or_introl eq_refl) F (or_introl eq_refl)).
    destruct (native_type m rt f _ _); cbn; congruence.
  - destruct (find_type m (ts_items ts)) as [td|] eqn:F; [|discriminate]. destruct (find_type m (ts_keys ts)) as [kd|] eqn:K; [|discriminate].
    assert (A := H _ _ (or_introl eq_refl) F (or_intror eq_refl)). assert (B := H _ _ (or_intror (or_introl eq_refl)) K (or_intror eq_refl)).
    destruct (native_type m rt f (td_spec kd) _); cbn; try congruence. destruct (native_type m rt f (td_spec td) _); cbn; congruence.
Qed.
Lemma fuel_three ts n : native_type m rt 3 ts n <> OutOfFuel.
Proof.
  apply fuel_step. intros x td I F _. apply fuel_step. intros y yd J G C. apply fuel_one.
  destruct (container_def x (td_spec td) C (find_def _ _ F)) as [E1 E2]. destruct J as [<- |[<- |[]]]; rewrite ?E1, ?E2; split; discriminate.
Qed.
Lemma native_iff ts n s : native_type m rt 3 ts n = Ok s <-> exists t, go_use sch rt ts n t /\ s = type_text t.
Proof. split; [apply native_use|]. intros (t & U & ->). apply use_three. exact U. Qed.
Lemma native_panic ts n : native_type m rt 3 ts n = Panic <-> forall t, ~ go_use sch rt ts n t.
Proof.
  split.
  - intros E t U. rewrite (use_three _ _ _ U) in E. discriminate.
  - intros N. destruct (native_total 3 ts n) as [E|[E|[s E]]]; [exact E|destruct (fuel_three _ _ E)|]. apply native_use in E as (t & U & _). destruct (N t U).
Qed.
End USE.
