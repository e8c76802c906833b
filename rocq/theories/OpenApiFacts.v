From Verif Require Import GoStr Outcome Value Schema Model SpecModel ModelFacts SpecPV SpecMisc SpecGen OpenApi SpecOpenApi.

(** ** Maps *)
Section Maps.
Context {A : Type}.
Implicit Types l : list (string * A).
Lemma put_keys k (v : A) l n : In n (map fst (put k v l)) <-> n = k \/ In n (map fst l).
Proof.
  induction l as [|[k' v'] l IH]; simpl; [intuition|]. destruct (k =?s k') eqn:E; simpl.
  - apply seqb_eq in E. subst. intuition.
  - rewrite IH. intuition.
Qed.
Lemma put_fresh k (v : A) l : ~ In k (map fst l) -> put k v l = l ++ [(k, v)].
Proof.
  induction l as [|[k' v'] l IH]; simpl; intros H; [reflexivity|]. destruct (k =?s k') eqn:E.
  - apply seqb_eq in E. subst. tauto.
  - rewrite IH; tauto.
Qed.
Lemma put_nodup k (v : A) l : NoDup (map fst l) -> NoDup (map fst (put k v l)).
Proof.
  induction l as [|[k' v'] l IH]; simpl; intros H; [repeat constructor; tauto|]. inversion H as [|? ? N D]; subst.
  destruct (k =?s k') eqn:E; simpl.
  - apply seqb_eq in E. subst. constructor; assumption.
  - constructor; [|apply IH; exact D]. rewrite put_keys. intros [X|X]; [subst; rewrite seqb_refl in E; discriminate|contradiction].
Qed.
Lemma put_In k (v : A) l n w : NoDup (map fst l) -> (In (n, w) (put k v l) <-> (n = k /\ w = v) \/ (n <> k /\ In (n, w) l)).
Proof.
  induction l as [|[k' v'] l IH]; simpl; intros H.
  - split; [intros [E|[]]; injection E as <- <-; tauto|]. intros [[-> ->]|[_ []]]. left; reflexivity.
  - inversion H as [|? ? N D]; subst. destruct (k =?s k') eqn:E; simpl.
    + apply seqb_eq in E. subst. split.
      * intros [X|X]; [injection X as <- <-; tauto|]. right. split; [|tauto]. intros ->. apply N. apply (in_map fst) in X. exact X.
      * intros [[-> ->]|[Nn [X|X]]]; [tauto|injection X as <- <-; congruence|tauto].
    + assert (NE : k <> k') by (intros ->; rewrite seqb_refl in E; discriminate). rewrite (IH D). split.
      * intros [X|[X|X]]; [injection X as <- <-; right; split; [congruence|tauto]|tauto|tauto].
      * intros [X|[Nn [X|X]]]; tauto.
Qed.
Lemma get_In k (v : A) l : NoDup (map fst l) -> (get k l = Some v <-> In (k, v) l).
Proof.
  induction l as [|[k' v'] l IH]; simpl; intros H; [split; [discriminate|tauto]|]. inversion H as [|? ? N D]; subst.
  destruct (k =?s k') eqn:E.
  - apply seqb_eq in E. subst. split; [intros X; injection X as <-; tauto|]. intros [X|X]; [congruence|]. exfalso. apply N.
    apply (in_map fst) in X. exact X.
  - rewrite (IH D). split; [tauto|]. intros [X|X]; [injection X as -> _; rewrite seqb_refl in E; discriminate|exact X].
Qed.
Lemma get_None k l : get k l = None <-> ~ In k (map fst l).
Proof.
  induction l as [|[k' v'] l IH]; simpl; [tauto|]. destruct (k =?s k') eqn:E.
  - apply seqb_eq in E. subst. split; [discriminate|tauto].
  - rewrite IH. split; [intros H [X|X]; [subst; rewrite seqb_refl in E; discriminate|contradiction]|tauto].
Qed.
End Maps.

(** ** Paths *)
Lemma cut_query_part s : path_part s (cut_query s).
Proof.
  unfold path_part, no_char. induction s as [|c s [N E]]; cbn [cut_query].
  - split; [intros (a & b & X); destruct a; discriminate|left; reflexivity].
  - destruct (Ascii.eqb c "?") eqn:Q.
    + apply Ascii.eqb_eq in Q. subst. split; [intros (a & b & X); destruct a; discriminate|]. right. exists s. reflexivity.
    + split.
      * intros (a & b & X). destruct a as [|x a]; simpl in X; injection X as -> X; [discriminate|]. apply N. exists a, b. exact X.
      * destruct E as [E|[q E]]; [left; f_equal; exact E|right; exists q; cbn [append]; f_equal; exact E].
Qed.
Lemma cut_query_only s a : path_part s a -> cut_query s = a.
Proof.
  intros [N E]. assert (X : forall q, ~ (exists x y, a = x +++ String "?" y) -> cut_query (a +++ q) = a +++ cut_query q).
  { clear. induction a as [|c a IH]; simpl; intros q N; [reflexivity|]. destruct (Ascii.eqb c "?") eqn:Q.
    - apply Ascii.eqb_eq in Q. subst. exfalso. apply N. exists "", a. reflexivity.
    - rewrite IH; [reflexivity|]. intros (x & y & ->). apply N. exists (String c x), y. reflexivity. }
  destruct E as [->|[q ->]].
  - rewrite <- (append_nil_r a) at 1. rewrite (X "" N). simpl. apply append_nil_r.
  - rewrite (X _ N). simpl. apply append_nil_r.
Qed.

Section Doc.
Context (f64 : decimal -> decimal) (sch : schema) (m : model) (Hm : new_model sch = Ok m).
Notation schema_at := (oas_schema f64 m).

(** ** References *)
Definition clean (s : oas) : Prop := forall r, has_ref s r -> exists n, r = schema_prefix +++ n /\ declared sch n.
Lemma not_builtin n : declared sch n -> ~ In n builtin_names.
Proof. intros (td & I & <-). destruct (new_model_inv _ _ Hm) as (_ & _ & _ & _ & C & _). apply C. exact I. Qed.
Lemma clean_leaf s : o_ref s = "" -> o_items s = None -> o_addl s = None -> o_props s = None -> o_oneof s = [] -> clean s.
Proof. intros R I A P O r H. destruct H as [? X|? ? ? X|? ? ? X|? ? ? ? ? X|? ? ? X]; try congruence. rewrite O in X. destruct X. Qed.
Lemma clean_ref n : declared sch n -> clean (oas_ref n).
Proof. intros D r H. inversion H as [? X|? ? ? X|? ? ? X|? ? ? ? ? X|? ? ? X]; subst; try discriminate; [|destruct X]. exists n. auto. Qed.
Lemma clean_array d i : clean i -> clean (oas_array d i).
Proof.
  intros C r H. inversion H as [? X|? ? ? X Y|? ? ? X|? ? ? ? ? X|? ? ? X]; subst; simpl in *; try discriminate; [congruence| |contradiction].
  injection X as <-. exact (C r Y).
Qed.
Lemma clean_map d i : clean i -> clean (oas_map d i).
Proof.
  intros C r H. inversion H as [? X|? ? ? X Y|? ? ? X Y|? ? ? ? ? X|? ? ? X]; subst; simpl in *; try discriminate; [congruence| |contradiction].
  injection X as <-. exact (C r Y).
Qed.
Lemma clean_object d ps req : (forall n p, In (n, p) ps -> clean p) -> clean (oas_object d ps req).
Proof.
  intros C r H. inversion H as [? X|? ? ? X Y|? ? ? X Y|? ps' ? ? ? X I Y|? ? ? X]; subst; simpl in *; try discriminate; [congruence| |contradiction].
  injection X as <-. exact (C _ _ I r Y).
Qed.
Definition props_clean (ps : list (string * oas)) : Prop := NoDup (map fst ps) /\ forall n p, In (n, p) ps -> clean p.
Lemma props_clean_put k s ps : props_clean ps -> clean s -> props_clean (put k s ps).
Proof.
  intros [N C] S. split; [apply put_nodup; exact N|]. intros n p I. apply (put_In _ _ _ _ _ N) in I.
  destruct I as [[_ ->]|[_ I]]; [exact S|exact (C _ _ I)].
Qed.
Lemma num_clean ts : clean (num_schema f64 ts).
Proof. unfold num_schema. destruct (oas_numeric (ts_type ts)) as [[t f] d]. apply clean_leaf; reflexivity. Qed.
Lemma string_clean ts : clean (string_schema ts).
Proof. apply clean_leaf; reflexivity. Qed.
Hypothesis Hdefs : forall td, In td (sc_types sch) -> oas_def_ok sch td.
Lemma def_field td : In td (sc_types sch) ->
  In (ts_type (td_spec td)) (oas_scalars ++ ["Array"; "Map"; "Struct"]) \/ declared sch (ts_type (td_spec td)) -> oas_field_ok sch (td_spec td).
Proof.
  intros I [K|K]; [|apply ofo_declared; exact K]. destruct (Hdefs td I) as (S & A & M & _). apply in_app_iff in K. destruct K as [K|K]; [apply ofo_scalar; exact K|].
  destruct K as [K|[K|[K|[]]]]; symmetry in K; [apply ofo_array; auto|apply ofo_map; auto|apply ofo_struct; auto].
Qed.
Lemma item_lookup kinds n td : oas_item_ok sch kinds n -> find_type m n = Some td ->
  (In n oas_scalars /\ td_spec td = ts_of n)
  \/ (In td (sc_types sch) /\ td_name td = n /\ (In (ts_type (td_spec td)) (oas_scalars ++ kinds) \/ declared sch (ts_type (td_spec td)))).
Proof.
  intros H F. apply (find_type_spec _ _ Hm) in F. destruct H as [S|(td' & I & N & K)].
  - left. split; [exact S|]. destruct F as [[_ ->]|[I N]]; [reflexivity|]. exfalso. apply (not_builtin n); [exists td; auto|].
    apply str_mem_In in S. apply str_mem_In. unfold str_mem, oas_scalars, builtin_names in *. cbn [existsb] in *.
    repeat (apply orb_true_iff in S; destruct S as [S|S]; [rewrite S, ?orb_true_r; reflexivity|]). discriminate.
  - right. destruct F as [[B _]|[I' N']]; [exfalso; apply (not_builtin n); [exists td'; auto|exact B]|].
    assert (td = td'); [|subst; auto]. destruct (new_model_inv _ _ Hm) as (_ & _ & _ & D & _).
    clear -D I I' N N'. induction (sc_types sch) as [|x l IH]; [destruct I|]. simpl in D. inversion D as [|? ? X D']; subst.
    destruct I as [->|I], I' as [->|I']; [reflexivity| | |auto].
    + exfalso. apply X. rewrite <- N'. apply in_map. exact I'.
    + exfalso. apply X. rewrite N'. apply in_map. exact I.
Qed.
(** what holds of a spec that is written under a name *)
Definition ok_at (ts : typespec) (name : string) : Prop :=
  (oas_field_ok sch ts \/ (ts_type ts = "Enum" /\ declared sch name)) /\ (name <> "" -> ts_type ts = "Struct" -> declared sch name).
Lemma scalar_not n x : In n oas_scalars -> ~ In x oas_scalars -> n <> x.
Proof. congruence. Qed.
Lemma array_item_at n td : oas_item_ok sch ["Array"; "Map"; "Struct"; "Enum"] n -> find_type m n = Some td -> ok_at (td_spec td) n.
Proof.
  intros O F. destruct (item_lookup _ _ _ O F) as [[S ->]|(I & <- & K)].
  - split; [left; apply ofo_scalar; exact S|]. intros _ E. simpl in E. subst. simpl in S. intuition discriminate.
  - assert (D : declared sch (td_name td)) by (exists td; auto). split; [|intros _ _; exact D].
    destruct K as [K|K]; [|left; apply def_field; tauto].
    apply in_app_iff in K. destruct K as [K|K]; [left; apply def_field; [exact I|left; apply in_app_iff; tauto]|].
    destruct K as [K|[K|[K|[K|[]]]]]; try (left; apply def_field; [exact I|left; apply in_app_iff; right; rewrite <- K; simpl; tauto]).
    right. auto.
Qed.
Lemma map_item_at n td : oas_item_ok sch ["Array"; "Map"; "Struct"] n -> find_type m n = Some td -> ok_at (td_spec td) "".
Proof.
  intros O F. destruct (item_lookup _ _ _ O F) as [[S ->]|(I & <- & K)].
  - split; [left; apply ofo_scalar; exact S|congruence].
  - split; [left; apply def_field; assumption|congruence].
Qed.
Lemma field_type ts x : In x builtin_names -> ~ In x oas_scalars -> ts_type ts = x -> oas_field_ok sch ts ->
  x = "Array" /\ oas_item_ok sch ["Array"; "Map"; "Struct"; "Enum"] (ts_items ts)
  \/ x = "Map" /\ oas_item_ok sch ["Array"; "Map"; "Struct"] (ts_items ts)
  \/ x = "Struct" /\ forall f, In f (ts_fields ts) -> oas_field_ok sch (fd_spec f).
Proof.
  intros B NS E H. destruct H as [ts S|ts D|ts A I|ts A I|ts A I].
  - rewrite E in S. contradiction.
  - exfalso. rewrite E in D. exact (not_builtin _ D B).
  - left. split; [congruence|exact I].
  - right. left. split; [congruence|exact I].
  - right. right. split; [congruence|exact I].
Qed.
Lemma schema_clean : forall fuel ts name s, ok_at ts name -> schema_at fuel ts name = Ok s -> clean s.
Proof.
  induction fuel as [|fuel IH]; intros ts name s O H; [discriminate|]. cbn [oas_schema] in H.
  destruct (ts_type ts =?s "Bool") eqn:E1; [injection H as <-; apply clean_leaf; reflexivity|].
  destruct (str_mem (ts_type ts) number_types) eqn:E2.
  { destruct (_ && _)%bool; [discriminate|]. injection H as <-. apply num_clean. }
  destruct (ts_type ts =?s "Bytes") eqn:E3; [injection H as <-; apply clean_leaf; reflexivity|].
  destruct (ts_type ts =?s "String") eqn:E4; [injection H as <-; apply string_clean|].
  destruct (ts_type ts =?s "Timestamp") eqn:E5; [injection H as <-; apply clean_leaf; reflexivity|].
  destruct (ts_type ts =?s "UnitValue") eqn:E6; [injection H as <-; apply clean_leaf; reflexivity|].
  destruct (ts_type ts =?s "UUID") eqn:E7; [injection H as <-; apply clean_leaf; reflexivity|].
  destruct O as [O ON].
  destruct (ts_type ts =?s "Enum") eqn:E8.
  { apply seqb_eq in E8. injection H as <-. apply clean_ref. destruct O as [O|[_ O]]; [|exact O].
    apply (field_type ts "Enum") in O; [|simpl; tauto|simpl; intuition discriminate|exact E8].
    destruct O as [[X _]|[[X _]|[X _]]]; discriminate. }
  destruct (ts_type ts =?s "Array") eqn:E9.
  { apply seqb_eq in E9. destruct (find_type m (ts_items ts)) as [td|] eqn:F; [|discriminate].
    apply rbind_Ok in H. destruct H as (i & H & E). injection E as <-. apply clean_array. eapply IH; [|exact H].
    destruct O as [O|[O _]]; [|congruence]. apply (field_type ts "Array") in O; [|simpl; tauto|simpl; intuition discriminate|exact E9].
    destruct O as [[_ X]|[[X _]|[X _]]]; try discriminate. apply array_item_at; assumption. }
  destruct (ts_type ts =?s "Map") eqn:E10.
  { apply seqb_eq in E10. destruct (find_type m (ts_items ts)) as [td|] eqn:F; [|discriminate].
    apply rbind_Ok in H. destruct H as (i & H & E). injection E as <-. apply clean_map. eapply IH; [|exact H].
    destruct O as [O|[O _]]; [|congruence]. apply (field_type ts "Map") in O; [|simpl; tauto|simpl; intuition discriminate|exact E10].
    destruct O as [[X _]|[[_ X]|[X _]]]; try discriminate. eapply map_item_at; eassumption. }
  destruct (ts_type ts =?s "Struct") eqn:E11.
  { apply seqb_eq in E11. destruct (name =?s "") eqn:EN; cbn [negb] in H.
    - apply seqb_eq in EN. subst name. destruct O as [O|[O _]]; [|congruence].
      apply (field_type ts "Struct") in O; [|simpl; tauto|simpl; intuition discriminate|exact E11].
      destruct O as [[X _]|[[X _]|[_ O]]]; try discriminate.
      apply rbind_Ok in H. destruct H as (ps & H & E). injection E as <-. apply clean_object.
      assert (G : forall fs acc ps, (forall f, In f fs -> oas_field_ok sch (fd_spec f)) -> props_clean acc ->
        (fix go (fs : list fielddef) (acc : list (string * oas)) : result unit (list (string * oas)) :=
           match fs with [] => Ok acc | f :: r => s <- schema_at fuel (fd_spec f) "" ;; go r (put (fd_name f) s acc) end) fs acc = Ok ps -> props_clean ps).
      { clear -IH. induction fs as [|f fs G]; intros acc ps O A H; [injection H as <-; exact A|].
        apply rbind_Ok in H. destruct H as (s & S & H). eapply G; [|eapply props_clean_put; [exact A|]|exact H].
        - intros f' I. apply O. right. exact I.
        - eapply IH; [|exact S]. split; [left; apply O; left; reflexivity|congruence]. }
      apply G in H; [|exact O|split; [constructor|intros ? ? []]]. apply H.
    - injection H as <-. apply clean_ref. apply ON; [intros ->; discriminate|exact E11]. }
  injection H as <-. apply clean_ref. destruct O as [O|[O _]]; [|rewrite O in E8; discriminate].
  destruct O as [ts S|ts D|ts A _|ts A _|ts A _]; [|exact D| | |]; exfalso.
  - simpl in S. repeat (destruct S as [S|S]; [rewrite <- S in *; discriminate|]). exact S.
  - rewrite A in E9. discriminate.
  - rewrite A in E10. discriminate.
  - rewrite A in E11. discriminate.
Qed.
Lemma field_clean fuel ts s : oas_field_ok sch ts -> schema_at fuel ts "" = Ok s -> clean s.
Proof. intros O. apply schema_clean. split; [left; exact O|congruence]. Qed.
Lemma fields_clean fuel : forall fs req ps req' ps', (forall f, In f fs -> oas_field_ok sch (fd_spec f)) -> props_clean ps ->
  export_fields f64 m fuel fs req ps = Ok (req', ps') -> props_clean ps'.
Proof.
  induction fs as [|f fs IH]; intros req ps req' ps' O A H; simpl in H; [injection H as <- <-; exact A|].
  apply rbind_Ok in H. destruct H as (s & S & H). eapply IH; [| |exact H].
  - intros f' I. apply O. right. exact I.
  - apply props_clean_put; [exact A|]. eapply field_clean; [|exact S]. apply O. left. reflexivity.
Qed.
Lemma typedef_clean fuel td s : In td (sc_types sch) -> export_typedef f64 m fuel td = Ok s -> clean s.
Proof.
  intros I H. destruct (Hdefs td I) as (OS & OA & OM & OU). unfold export_typedef in H.
  assert (ST : forall fmt, In (ts_type (td_spec td)) ["String"; "UUID"; "Timestamp"] -> export_string f64 m fuel td fmt = Ok s -> clean s).
  { intros fmt K S. unfold export_string in S. apply rbind_Ok in S. destruct S as (x & S & E). injection E as <-.
    destruct fuel as [|fuel]; [discriminate|]. cbn [oas_schema] in S.
    destruct K as [K|[K|[K|[]]]]; rewrite <- K in S; cbn in S; injection S as <-; apply clean_leaf; reflexivity. }
  destruct (ts_type (td_spec td) =?s "Struct") eqn:E1.
  { apply seqb_eq in E1. unfold export_struct in H. apply rbind_Ok in H. destruct H as ([req ps] & H & E). injection E as <-.
    apply clean_object. apply fields_clean in H; [apply H|apply OS; exact E1|split; [constructor|intros ? ? []]]. }
  destruct (ts_type (td_spec td) =?s "Array") eqn:E2.
  { apply seqb_eq in E2. unfold export_array in H. destruct (find_type m _) as [itd|] eqn:F; [|discriminate].
    apply rbind_Ok in H. destruct H as (i & H & E). injection E as <-. apply clean_array. eapply schema_clean; [|exact H].
    apply array_item_at; [apply OA; exact E2|exact F]. }
  destruct (ts_type (td_spec td) =?s "Map") eqn:E3.
  { apply seqb_eq in E3. unfold export_map in H. destruct (find_type m _) as [itd|] eqn:F; [|discriminate].
    apply rbind_Ok in H. destruct H as (i & H & E). injection E as <-. apply clean_map. eapply schema_clean; [|exact H].
    eapply map_item_at; [apply OM; exact E3|exact F]. }
  destruct (ts_type (td_spec td) =?s "String") eqn:E4; [apply seqb_eq in E4; apply (ST None); [rewrite E4; simpl; tauto|exact H]|].
  destruct (ts_type (td_spec td) =?s "Bool") eqn:E5; [injection H as <-; apply clean_leaf; reflexivity|].
  destruct (ts_type (td_spec td) =?s "Enum") eqn:E6; [injection H as <-; apply clean_leaf; reflexivity|].
  destruct (str_mem _ number_types); [injection H as <-; apply num_clean|].
  destruct (ts_type (td_spec td) =?s "UUID") eqn:E7; [apply seqb_eq in E7; apply (ST (Some "uuid")); [rewrite E7; simpl; tauto|exact H]|].
  destruct (ts_type (td_spec td) =?s "Union") eqn:E8.
  { apply seqb_eq in E8. injection H as <-. intros r H. inversion H as [? X|? ? ? X Y|? ? ? X Y|? ? ? ? ? X|? i ? X Y]; subst; simpl in *; try discriminate; [congruence|].
    apply in_map_iff in X. destruct X as (v & <- & Iv). apply (clean_ref _ (OU E8 v Iv)). exact Y. }
  destruct (ts_type (td_spec td) =?s "Timestamp") eqn:E9; [apply seqb_eq in E9; apply (ST (Some "date-time")); [rewrite E9; simpl; tauto|exact H]|].
  discriminate.
Qed.
Lemma types_clean fuel : forall tds acc ss, incl tds (sc_types sch) -> props_clean acc ->
  export_types f64 m fuel tds acc = Ok ss ->
  props_clean ss /\ forall n, In n (map fst ss) <-> In n (map fst acc) \/ In n (map td_name tds).
Proof.
  induction tds as [|td tds IH]; intros acc ss I A H; simpl in H.
  - injection H as <-. split; [exact A|]. simpl. tauto.
  - apply rbind_Ok in H. destruct H as (s & S & H). apply IH in H.
    + destruct H as [C K]. split; [exact C|]. intros n. rewrite K, put_keys. simpl. intuition.
    + intros x X. apply I. right. exact X.
    + apply props_clean_put; [exact A|]. eapply typedef_clean; [|exact S]. apply I. left. reflexivity.
Qed.
Lemma inputs_clean fuel : forall ins ps body ps' body', (forall p, In p ins -> oas_field_ok sch (fd_spec (ps_field p))) ->
  (forall p, In p ps -> clean (op_schema p)) -> (forall d s, body = Some (d, s) -> clean s) ->
  oas_inputs f64 m fuel ins ps body = Ok (ps', body') ->
  (forall p, In p ps' -> clean (op_schema p)) /\ (forall d s, body' = Some (d, s) -> clean s).
Proof.
  induction ins as [|p ins IH]; intros ps body ps' body' O A B H; simpl in H; [injection H as <- <-; auto|].
  apply rbind_Ok in H. destruct H as (s & S & H).
  assert (C : clean s) by (eapply field_clean; [|exact S]; apply O; left; reflexivity).
  assert (O' : forall p, In p ins -> oas_field_ok sch (fd_spec (ps_field p))) by (intros x X; apply O; right; exact X).
  assert (A' : forall q, op_schema q = s -> forall p, In p (ps ++ [q]) -> clean (op_schema p)).
  { intros q E x X. apply in_app_iff in X. destruct X as [X|[<-|[]]]; [exact (A _ X)|rewrite E; exact C]. }
  destruct (ps_path p); [eapply IH; [exact O'| |exact B|exact H]; apply A'; reflexivity|].
  destruct (negb (ps_query p =?s "")); [eapply IH; [exact O'| |exact B|exact H]; apply A'; reflexivity|].
  destruct (negb (ps_header p =?s "")); [eapply IH; [exact O'| |exact B|exact H]; apply A'; reflexivity|].
  eapply IH; [exact O'|exact A| |exact H]. intros d x X. injection X as _ <-. exact C.
Qed.
Lemma outputs_clean fuel : forall outs hs body hs' body', (forall p, In p outs -> oas_field_ok sch (fd_spec (ps_field p))) ->
  NoDup (map fst hs) -> (forall n d s, In (n, (d, s)) hs -> clean s) -> (forall s, body = Some s -> clean s) ->
  oas_outputs f64 m fuel outs hs body = Ok (hs', body') ->
  (forall n d s, In (n, (d, s)) hs' -> clean s) /\ (forall s, body' = Some s -> clean s).
Proof.
  induction outs as [|p outs IH]; intros hs body hs' body' O N A B H; simpl in H; [injection H as <- <-; auto|].
  apply rbind_Ok in H. destruct H as (s & S & H).
  assert (C : clean s) by (eapply field_clean; [|exact S]; apply O; left; reflexivity).
  assert (O' : forall p, In p outs -> oas_field_ok sch (fd_spec (ps_field p))) by (intros x X; apply O; right; exact X).
  destruct (negb (ps_header p =?s "")).
  - eapply IH; [exact O'|apply put_nodup; exact N| |exact B|exact H]. intros n d x X. apply (put_In _ _ _ _ _ N) in X.
    destruct X as [[_ X]|[_ X]]; [injection X as _ <-; exact C|exact (A _ _ _ X)].
  - eapply IH; [exact O'|exact N|exact A| |exact H]. intros x X. injection X as <-. exact C.
Qed.
Definition op_clean (op : ooperation) : Prop := forall s, op_schema_in op s -> clean s.
Definition resps_clean (rs : list (string * oresponse)) : Prop :=
  forall k r, In (k, r) rs -> (forall s, or_body r = Some s -> clean s) /\ (forall n d s, In (n, (d, s)) (or_headers r) -> clean s).
Lemma exceptions_clean xs : forall acc, (forall x, In x xs -> declared sch (xc_type x)) -> NoDup (map fst acc) -> resps_clean acc ->
  resps_clean (oas_exceptions xs acc).
Proof.
  unfold oas_exceptions. induction xs as [|x xs IH]; intros acc D N C; simpl; [exact C|]. apply IH.
  - intros y Y. apply D. right. exact Y.
  - apply put_nodup. exact N.
  - intros k r I. apply (put_In _ _ _ _ _ N) in I. destruct I as [[_ ->]|[_ I]]; [|exact (C _ _ I)].
    simpl. split; [|intros ? ? ? []]. intros s E. injection E as <-. apply clean_ref. apply D. left. reflexivity.
Qed.
Lemma operation_clean fuel h op : oas_http_ok sch h -> oas_operation f64 m fuel h = Ok op -> op_clean op.
Proof.
  intros (OI & OO & OX) H. unfold oas_operation in H. apply rbind_Ok in H. destruct H as ([ps body] & HI & H).
  destruct (h_expected h) as [e|] eqn:HE; [|discriminate]. apply rbind_Ok in H. destruct H as ([hs ob] & HO & E). injection E as <-.
  apply inputs_clean in HI; [|exact OI|intros ? []|discriminate].
  apply outputs_clean in HO; [|intros p P; eapply OO; [reflexivity|exact P]|constructor|intros ? ? ? []|discriminate].
  destruct HI as [CP CB], HO as [CH CO].
  assert (R : resps_clean (oas_exceptions (h_exceptions h)
     [(sprint (xp_status e), mkOResp (if xp_comment e =?s "" then "Expected response" else xp_comment e) hs ob)])).
  { apply exceptions_clean; [exact OX|repeat constructor; intros []|]. intros k r [X|[]]. injection X as <- <-. simpl. auto. }
  intros s S. inversion S as [? p I|? d ? B|? k r ? I B|? k r n d ? I B]; subst; simpl in *.
  - exact (CP _ I).
  - exact (CB _ _ B).
  - exact (proj1 (R _ _ I) _ B).
  - exact (proj2 (R _ _ I) _ _ _ B).
Qed.
Definition paths_clean (ps : list (string * pathitem)) : Prop := forall p pi mth op, In (p, pi) ps -> In (mth, op) pi -> op_clean op.
End Doc.

Section Paths.
Context (f64 : decimal -> decimal) (m : model).
(** the paths made so far *)
Definition paths_wf (ps : list (string * pathitem)) : Prop := NoDup (map fst ps) /\ forall p pi, In (p, pi) ps -> NoDup (map fst pi).
Definition paths_op (ps : list (string * pathitem)) (p mth : string) (op : ooperation) : Prop :=
  exists pi, In (p, pi) ps /\ In (mth, op) pi.
Lemma paths_wf_nil : paths_wf [].
Proof. split; [constructor|intros p pi []]. Qed.
Lemma old_item p ps : paths_wf ps -> let pi := match get p ps with Some pi => pi | None => [] end in
  NoDup (map fst pi) /\ forall mth op, In (mth, op) pi <-> paths_op ps p mth op.
Proof.
  intros [N D]. destruct (get p ps) as [pi|] eqn:G; simpl.
  - apply (get_In _ _ _ N) in G. split; [exact (D _ _ G)|]. intros mth op. split; [intros I; exists pi; auto|].
    intros (pi' & I' & I). apply (get_In _ _ _ N) in G, I'. congruence.
  - split; [constructor|]. intros mth op. split; [intros []|]. intros (pi & I & _). apply get_None in G. apply G.
    apply (in_map fst) in I. exact I.
Qed.
Lemma put_item p pi ps : paths_wf ps -> NoDup (map fst pi) ->
  paths_wf (put p pi ps) /\ forall q mth op, paths_op (put p pi ps) q mth op <-> (q = p /\ In (mth, op) pi) \/ (q <> p /\ paths_op ps q mth op).
Proof.
  intros [N D] NP. split.
  - split; [apply put_nodup; exact N|]. intros q x I. apply (put_In _ _ _ _ _ N) in I. destruct I as [[_ ->]|[_ I]]; [exact NP|exact (D _ _ I)].
  - intros q mth op. unfold paths_op. split.
    + intros (x & I & J). apply (put_In _ _ _ _ _ N) in I. destruct I as [[-> ->]|[K I]]; [left; auto|right; split; [exact K|exists x; auto]].
    + intros [[-> I]|[K (x & I & J)]]; [exists pi|exists x]; (split; [apply (put_In _ _ _ _ _ N)|]); auto.
Qed.
(** one operation for each action with one of the four methods *)
Lemma http_ops fuel : forall hs ps ps', paths_wf ps -> export_http f64 m fuel hs ps = Ok ps' ->
  paths_wf ps'
  /\ (forall p, In p (map fst ps') <-> In p (map fst ps) \/ exists h, In h hs /\ oas_path m h = p)
  /\ (forall p mth op, paths_op ps' p mth op <-> paths_op ps p mth op
        \/ exists h, In h hs /\ oas_path m h = p /\ h_method h = mth /\ In mth oas_methods /\ oas_operation f64 m fuel h = Ok op)
  /\ (forall h, In h hs -> exists op, oas_operation f64 m fuel h = Ok op).
Proof.
  induction hs as [|h hs IH]; intros ps ps' W H; cbn [export_http] in H.
  - injection H as <-. split; [exact W|]. split; [|split].
    + intros p. split; [auto|]. intros [X|(h & [] & _)]; exact X.
    + intros p mth op. split; [auto|]. intros [X|(h & [] & _)]; exact X.
    + intros h [].
  - destruct (old_item (oas_path m h) ps W) as [NP OP]. set (pi := match get (oas_path m h) ps with Some pi => pi | None => [] end) in *.
    destruct (str_mem (h_method h) oas_methods) eqn:SM.
    + destruct (get (h_method h) pi) as [|] eqn:G; [discriminate|]. apply rbind_Ok in H. destruct H as (op & HO & H).
      destruct (put_item (oas_path m h) (put (h_method h) op pi) ps W (put_nodup _ _ _ NP)) as [W' P'].
      destruct (IH _ _ W' H) as (Wf & K & O & T). split; [exact Wf|]. split; [|split].
      * intros p. rewrite K, put_keys. split; [intros [[->|X]|(h' & I & E)]|intros [X|(h' & [->|I] & E)]].
        -- right. exists h. simpl. auto.
        -- auto.
        -- right. exists h'. simpl. auto.
        -- auto.
        -- left. left. congruence.
        -- right. exists h'. auto.
      * intros p mth o. rewrite O, P', (put_In _ _ _ _ _ NP), OP. apply str_mem_In in SM. apply get_None in G. split.
        -- intros [[[-> [[-> ->]|[_ X]]]|[_ X]]|(h' & I & R)]; [|auto|auto|].
           ++ right. exists h. simpl. auto.
           ++ right. exists h'. simpl. tauto.
        -- intros [X|(h' & [<-|I] & E & M & I4 & R)].
           ++ left. destruct (string_dec p (oas_path m h)) as [->|NE]; [|right; auto]. left. split; [reflexivity|].
              destruct (string_dec mth (h_method h)) as [->|NM]; [|right; split; [exact NM|apply X]].
              exfalso. apply G. apply OP in X. apply (in_map fst) in X. exact X.
           ++ left. left. split; [auto|]. left. split; [auto|]. congruence.
           ++ right. exists h'. auto.
      * intros h' [<-|I]; [exists op; exact HO|exact (T _ I)].
    + apply rbind_Ok in H. destruct H as (op & HO & H).
      destruct (put_item (oas_path m h) pi ps W NP) as [W' P'].
      destruct (IH _ _ W' H) as (Wf & K & O & T). split; [exact Wf|]. split; [|split].
      * intros p. rewrite K, put_keys. split; [intros [[->|X]|(h' & I & E)]|intros [X|(h' & [->|I] & E)]].
        -- right. exists h. simpl. auto.
        -- auto.
        -- right. exists h'. simpl. auto.
        -- auto.
        -- left. left. congruence.
        -- right. exists h'. auto.
      * intros p mth o. rewrite O, P', OP. split.
        -- intros [[[-> X]|[_ X]]|(h' & I & R)]; [auto|auto|]. right. exists h'. simpl. tauto.
        -- intros [X|(h' & [<-|I] & E & M & I4 & R)].
           ++ left. destruct (string_dec p (oas_path m h)) as [->|NE]; auto.
           ++ exfalso. rewrite M in SM. apply str_mem_In in I4. congruence.
           ++ right. exists h'. auto.
      * intros h' [<-|I]; [exists op; exact HO|exact (T _ I)].
Qed.
(** two actions with the same path and one of the four methods are refused *)
Lemma operation_id fuel h op : oas_operation f64 m fuel h = Ok op ->
  oo_id op = h_name h /\ oo_summary op = h_comment h /\ oo_tags op = oas_tags h.
Proof.
  unfold oas_operation. intros H. apply rbind_Ok in H. destruct H as ([ps body] & _ & H).
  destruct (h_expected h); [|discriminate]. apply rbind_Ok in H. destruct H as ([hs ob] & _ & E). injection E as <-. auto.
Qed.
Lemma inputs_stand fuel : forall ins ps body ps' body', oas_inputs f64 m fuel ins ps body = Ok (ps', body') ->
  exists ps2, ps' = ps ++ ps2
  /\ exists kept, Forall2 param_stands kept ps2 /\ without is_body ins kept
  /\ (body' = body /\ kept = ins \/ exists p s, In p ins /\ is_body p /\ body' = Some (fd_comment (ps_field p), s)).
Proof.
  induction ins as [|p ins IH]; intros ps body ps' body' H; simpl in H.
  - injection H as <- <-. exists []. split; [symmetry; apply app_nil_r|]. exists []. split; [constructor|]. split; [constructor|]. left. auto.
  - apply rbind_Ok in H. destruct H as (s & S & H).
    assert (STEP : forall q, param_stands p q -> ~ is_body p -> oas_inputs f64 m fuel ins (ps ++ [q]) body = Ok (ps', body') ->
      exists ps2, ps' = ps ++ ps2 /\ exists kept, Forall2 param_stands kept ps2 /\ without is_body (p :: ins) kept
        /\ (body' = body /\ kept = p :: ins \/ exists p' s, In p' (p :: ins) /\ is_body p' /\ body' = Some (fd_comment (ps_field p'), s))).
    { intros q Q NB H'. apply IH in H'. destruct H' as (ps2 & E & kept & F & W & B). exists (q :: ps2). split; [rewrite E, <- app_assoc; reflexivity|].
      exists (p :: kept). split; [constructor; assumption|]. split; [apply wo_keep; assumption|].
      destruct B as [[B ->]|(p' & s' & I & B)]; [left; auto|right; exists p', s'; split; [right; exact I|exact B]]. }
    destruct (ps_path p) eqn:EP.
    { apply (STEP _ (pst_path p s EP)); [intros (X & _); congruence|exact H]. }
    destruct (ps_query p =?s "") eqn:EQ; cbn [negb] in H.
    + apply seqb_eq in EQ. destruct (ps_header p =?s "") eqn:EH; cbn [negb] in H.
      * apply seqb_eq in EH. assert (B : is_body p) by (repeat split; assumption).
        apply IH in H. destruct H as (ps2 & E & kept & F & W & X). exists ps2. split; [exact E|]. exists kept.
        split; [exact F|]. split; [apply wo_drop; assumption|]. right.
        destruct X as [[X _]|(p' & s' & I & X)]; [exists p, s; split; [left; reflexivity|auto]|exists p', s'; split; [right; exact I|exact X]].
      * assert (NE : ps_header p <> "") by (intros X; rewrite X in EH; discriminate).
        apply (STEP _ (pst_header p s EP EQ NE)); [intros (_ & _ & X); congruence|exact H].
    + assert (NE : ps_query p <> "") by (intros X; rewrite X in EQ; discriminate).
      apply (STEP _ (pst_query p s EP NE)); [intros (_ & X & _); congruence|exact H].
Qed.
Lemma operation_params fuel h op : oas_operation f64 m fuel h = Ok op ->
  (exists kept, without is_body (h_inputs h) kept /\ Forall2 param_stands kept (oo_params op))
  /\ (oo_body op <> None <-> exists p, In p (h_inputs h) /\ is_body p).
Proof.
  unfold oas_operation. intros H. apply rbind_Ok in H. destruct H as ([ps body] & HI & H).
  destruct (h_expected h); [|discriminate]. apply rbind_Ok in H. destruct H as ([hs ob] & _ & E). injection E as <-. simpl.
  apply inputs_stand in HI. destruct HI as (ps2 & E & kept & F & W & B). simpl in E. subst ps2. split; [exists kept; auto|].
  split.
  - destruct B as [[-> _]|(p & s & I & B & _)]; [congruence|]. intros _. exists p. auto.
  - intros (p & I & IB). destruct B as [[-> ->]|(p' & s & _ & _ & ->)]; [|discriminate]. exfalso.
    clear -W I IB. assert (X : forall l l', without is_body l l' -> In p l' -> ~ is_body p).
    { intros l l' K. induction K as [|x l l' P K IH|x l l' P K IH]; [intros []|exact IH|]. intros [->|J]; [exact P|exact (IH J)]. }
    exact (X _ _ W I IB).
Qed.
End Paths.

Section Whole.
Context (f64 : decimal -> decimal) (sch : schema) (m : model) (Hm : new_model sch = Ok m).
Lemma export_resolves fuel doc :
  (forall td, In td (sc_types sch) -> oas_def_ok sch td) -> (forall h, In h (sc_http sch) -> oas_http_ok sch h) ->
  export_oas f64 m fuel = Ok doc -> forall r, doc_ref doc r -> resolves doc r.
Proof.
  intros HD HH H. unfold export_oas in H. rewrite (proj1 (new_model_inv _ _ Hm)) in H.
  apply rbind_Ok in H. destruct H as (ss & HS & H). apply rbind_Ok in H. destruct H as (ps & HP & E). injection E as <-.
  apply (types_clean f64 sch m Hm HD) in HS; [|apply incl_refl|split; [constructor|intros ? ? []]]. destruct HS as [[_ C] K].
  destruct (http_ops f64 m fuel _ _ _ paths_wf_nil HP) as (_ & _ & O & _).
  intros r (s & S & R). assert (CS : clean sch s).
  { inversion S as [? n ? I|? p pi mth op ? I J L]; subst; simpl in *; [exact (C _ _ I)|].
    destruct (proj1 (O p mth op)) as [(? & [] & _)|(h & Ih & _ & _ & _ & OP)]; [exists pi; auto|].
    exact (operation_clean f64 sch m Hm HD fuel h op (HH h Ih) OP s L). }
  destruct (CS r R) as (n & -> & td & I & <-). exists (td_name td).
  assert (X : In (td_name td) (map fst ss)) by (apply K; right; apply in_map; exact I).
  apply in_map_iff in X. destruct X as ([k x] & EQ & X). simpl in EQ. subst k. exists x. split; [reflexivity|exact X].
Qed.
Lemma export_ops fuel doc : export_oas f64 m fuel = Ok doc ->
  NoDup (map fst (od_paths doc)) /\ (forall p pi, In (p, pi) (od_paths doc) -> NoDup (map fst pi))
  /\ (forall p, In p (map fst (od_paths doc)) <-> exists h, In h (sc_http sch) /\ path_part (sc_base sch +++ h_path h) p)
  /\ (forall p mth op, doc_op doc p mth op <->
        exists h, In h (sc_http sch) /\ path_part (sc_base sch +++ h_path h) p /\ h_method h = mth
          /\ In mth ["GET"; "PUT"; "DELETE"; "POST"] /\ oas_operation f64 m fuel h = Ok op)
  /\ (forall h, In h (sc_http sch) -> exists op, oas_operation f64 m fuel h = Ok op).
Proof.
  intros H. unfold export_oas in H. rewrite (proj1 (new_model_inv _ _ Hm)) in H.
  apply rbind_Ok in H. destruct H as (ss & HS & H). apply rbind_Ok in H. destruct H as (ps & HP & E). injection E as <-. simpl.
  destruct (http_ops f64 m fuel _ _ _ paths_wf_nil HP) as ([N D] & K & O & T).
  assert (PP : forall h p, oas_path m h = p <-> path_part (sc_base sch +++ h_path h) p).
  { intros h p. unfold oas_path. rewrite (proj1 (new_model_inv _ _ Hm)). split; [intros <-; apply cut_query_part|apply cut_query_only]. }
  split; [exact N|]. split; [exact D|]. split; [|split; [|exact T]].
  - intros p. rewrite K. split; [intros [[]|(h & I & X)]|intros (h & I & X); right]; exists h; (split; [exact I|apply PP; exact X]).
  - intros p mth op. unfold doc_op. simpl. fold (paths_op ps p mth op). rewrite O. split.
    + intros [(? & [] & _)|(h & I & X & R)]. exists h. split; [exact I|]. split; [apply PP; exact X|exact R].
    + intros (h & I & X & R). right. exists h. split; [exact I|]. split; [apply PP; exact X|exact R].
Qed.
Lemma types_lookup fuel : forall tds acc ss, NoDup (map td_name tds) -> NoDup (map fst acc) ->
  export_types f64 m fuel tds acc = Ok ss ->
  NoDup (map fst ss) /\ (forall n s, In (n, s) ss <->
    (In (n, s) acc /\ ~ In n (map td_name tds)) \/ exists td, In td tds /\ td_name td = n /\ export_typedef f64 m fuel td = Ok s)
  /\ forall td, In td tds -> exists s, export_typedef f64 m fuel td = Ok s.
Proof.
  induction tds as [|td tds IH]; intros acc ss ND NA H; simpl in H.
  - injection H as <-. split; [exact NA|]. split; [|intros td []]. intros n s. simpl. split; [tauto|]. intros [X|(td & [] & _)]; tauto.
  - apply rbind_Ok in H. destruct H as (s & S & H). inversion ND as [|? ? X D]; subst.
    destruct (IH _ _ D (put_nodup _ _ _ NA) H) as (N & L & T). split; [exact N|]. split.
    + intros n x. rewrite L, (put_In _ _ _ _ _ NA). simpl. split.
      * intros [[[[-> ->]|[Y Z]] W]|(td' & I & E & R)]; [right; exists td; auto|left; split; [exact Z|intros [Q|Q]; [congruence|contradiction]]|right; exists td'; auto].
      * intros [[Y Z]|(td' & [<-|I] & E & R)]; [left; split; [right; split; [intros ->; apply Z; auto|exact Y]|tauto]| |right; exists td'; auto].
        left. split; [left; split; congruence|rewrite <- E; exact X].
    + intros td' [<-|I]; [exists s; exact S|exact (T _ I)].
Qed.
Lemma export_schemas fuel doc : export_oas f64 m fuel = Ok doc ->
  (forall n s, In (n, s) (od_schemas doc) <-> exists td, In td (sc_types sch) /\ td_name td = n /\ export_typedef f64 m fuel td = Ok s)
  /\ (forall td, In td (sc_types sch) -> exists s, export_typedef f64 m fuel td = Ok s) /\ NoDup (map fst (od_schemas doc)).
Proof.
  intros H. unfold export_oas in H. destruct (new_model_inv _ _ Hm) as (E0 & _ & _ & ND & _). rewrite E0 in H.
  apply rbind_Ok in H. destruct H as (ss & HS & H). apply rbind_Ok in H. destruct H as (ps & HP & E). injection E as <-. simpl.
  destruct (types_lookup fuel _ [] _ ND (NoDup_nil _) HS) as (N & L & T). split; [|split; [exact T|exact N]].
  intros n s. rewrite L. split; [intros [[[] _]|X]; exact X|auto].
Qed.
Lemma fields_required fuel : forall fs req ps req' ps', export_fields f64 m fuel fs req ps = Ok (req', ps') ->
  NoDup (map fst ps) ->
  req' = req ++ map fd_name (filter fd_required fs) /\ NoDup (map fst ps')
  /\ (forall n, In n (map fst ps') <-> In n (map fst ps) \/ In n (map fd_name fs))
  /\ (NoDup (map fst ps ++ map fd_name fs) -> map fst ps' = map fst ps ++ map fd_name fs).
Proof.
  induction fs as [|f fs IH]; intros req ps req' ps' H N; simpl in H.
  - injection H as <- <-. simpl. rewrite !app_nil_r. split; [reflexivity|]. split; [exact N|]. split; [tauto|reflexivity].
  - apply rbind_Ok in H. destruct H as (s & S & H). apply IH in H; [|apply put_nodup; exact N]. destruct H as (R & N' & K & O). split; [|split; [exact N'|split]].
    + rewrite R. simpl. destruct (fd_required f); simpl; [rewrite <- app_assoc|]; reflexivity.
    + intros n. rewrite K, put_keys. simpl. intuition.
    + intros ND. simpl in ND. assert (F : ~ In (fd_name f) (map fst ps)).
      { intros X. apply NoDup_remove_2 in ND. apply ND. apply in_app_iff. auto. }
      rewrite (put_fresh _ _ _ F) in O. rewrite map_app in O. cbn [map fst] in O. rewrite <- app_assoc in O. apply O. exact ND.
Qed.
Lemma struct_shape fuel doc td : export_oas f64 m fuel = Ok doc -> In td (sc_types sch) -> ts_type (td_spec td) = "Struct" ->
  exists s ps, In (td_name td, s) (od_schemas doc) /\ o_type s = "object" /\ o_props s = Some ps
  /\ o_required s = map fd_name (filter fd_required (ts_fields (td_spec td)))
  /\ NoDup (map fst ps) /\ (forall n, In n (map fst ps) <-> In n (map fd_name (ts_fields (td_spec td))))
  /\ (NoDup (map fd_name (ts_fields (td_spec td))) -> map fst ps = map fd_name (ts_fields (td_spec td))).
Proof.
  intros H I K. destruct (export_schemas fuel doc H) as (L & T & _). destruct (T td I) as (s & S).
  assert (J : In (td_name td, s) (od_schemas doc)) by (apply L; exists td; auto).
  unfold export_typedef in S. rewrite K in S. simpl in S. unfold export_struct in S. apply rbind_Ok in S.
  destruct S as ([req ps] & F & E). injection E as <-. apply fields_required in F; [|constructor]. destruct F as (R & N & KK & O).
  exists (oas_object (td_comment td) ps req), ps. simpl in *. repeat split; try assumption.
  - intros X. apply KK in X. tauto.
  - intros X. apply KK. auto.
Qed.
End Whole.

(** ** Export then import *)
Section Round.
Context (f64 : decimal -> decimal) (m : model).
Lemma base_back fuel ts s : In (ts_type ts) oas_scalars -> oas_schema f64 m fuel ts "" = Ok s ->
  exists ts', convert_oas s = Ok ts' /\ ts_type ts' = comes_back_as (ts_type ts).
Proof.
  intros I H. destruct fuel as [|fuel]; [discriminate|]. cbn [oas_schema] in H. unfold num_schema in H.
  simpl in I. repeat (destruct I as [I|I]; [rewrite <- I in H |- *; simpl in H; injection H as <-; eexists; split; reflexivity|]). destruct I.
Qed.
Lemma number_back fuel ts s : In (ts_type ts) ["Int32"; "Int64"; "Decimal"] -> oas_schema f64 m fuel ts "" = Ok s ->
  convert_oas s = Ok (mkTS (ts_type ts) "" None None None [] [] (option_map f64 (ts_min ts)) (option_map f64 (ts_max ts)) "" "" [] "" "" "").
Proof.
  intros I H. destruct fuel as [|fuel]; [discriminate|]. cbn [oas_schema] in H. unfold num_schema in H.
  simpl in I. repeat (destruct I as [I|I]; [rewrite <- I in H |- *; simpl in H; injection H as <-; reflexivity|]). destruct I.
Qed.
Lemma int64_back z : (- 2 ^ 63 <= z < 2 ^ 63)%Z -> to_int64 (to_uint64 z) = z.
Proof.
  intros H. unfold to_int64, to_uint64. rewrite Z.mod_mod by (cbv; discriminate).
  change (2 ^ 64)%Z with 18446744073709551616%Z in *. change (2 ^ 63)%Z with 9223372036854775808%Z in *.
  destruct (Z.ltb_spec z 0) as [Hz|Hz].
  - assert (E : (z mod 18446744073709551616 = z + 18446744073709551616)%Z) by (symmetry; apply Z.mod_unique with (-1)%Z; lia).
    rewrite E. destruct (_ <? _)%Z eqn:L; [apply Z.ltb_lt in L; lia|lia].
  - rewrite Z.mod_small by lia. destruct (_ <? _)%Z eqn:L; [reflexivity|apply Z.ltb_ge in L; lia].
Qed.
Lemma uint64_zero z : (- 2 ^ 63 <= z < 2 ^ 63)%Z -> (0 <? to_uint64 z)%Z = negb (z =? 0)%Z.
Proof.
  intros H. unfold to_uint64. change (2 ^ 64)%Z with 18446744073709551616%Z in *. change (2 ^ 63)%Z with 9223372036854775808%Z in *.
  destruct (Z.eqb_spec z 0) as [->|N]; [reflexivity|]. simpl.
  assert (B := Z.mod_pos_bound z 18446744073709551616 ltac:(lia)).
  assert (NZ : (z mod 18446744073709551616 <> 0)%Z).
  { intros E. apply Z.mod_divide in E; [|lia]. destruct E as [k E]. nia. }
  apply Z.ltb_lt. lia.
Qed.
Definition int64 (o : option Z) : Prop := forall z, o = Some z -> (- 2 ^ 63 <= z < 2 ^ 63)%Z.
Lemma string_back fuel ts s : ts_type ts = "String" -> int64 (ts_minsize ts) -> int64 (ts_maxsize ts) -> oas_schema f64 m fuel ts "" = Ok s ->
  convert_oas s = Ok (mkTS "String" (ts_pattern ts) None
    (match ts_minsize ts with Some 0%Z => None | o => o end) (ts_maxsize ts) [] [] None None "" "" [] "" "" "").
Proof.
  intros E I J H. destruct fuel as [|fuel]; [discriminate|]. cbn [oas_schema] in H. rewrite E in H. simpl in H. injection H as <-.
  cbn. unfold convert_string, string_schema. cbn. unfold ts_fill. f_equal. f_equal.
  - destruct (ts_minsize ts) as [z|]; [|reflexivity]. rewrite (uint64_zero z (I z eq_refl)). rewrite (int64_back z (I z eq_refl)).
    destruct z; reflexivity.
  - destruct (ts_maxsize ts) as [z|]; [|reflexivity]. simpl. rewrite (int64_back z (J z eq_refl)). reflexivity.
Qed.
Lemma plain_back fuel ts s : In (ts_type ts) ["Bool"; "Timestamp"] -> oas_schema f64 m fuel ts "" = Ok s -> convert_oas s = Ok (ts_of (ts_type ts)).
Proof.
  intros I H. destruct fuel as [|fuel]; [discriminate|]. cbn [oas_schema] in H.
  simpl in I. repeat (destruct I as [I|I]; [rewrite <- I in H |- *; simpl in H; injection H as <-; reflexivity|]). destruct I.
Qed.
End Round.
