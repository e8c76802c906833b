(** Proofs about ConvertInlineEnums. *)
From Verif Require Import GoStr Outcome Value Schema Scalars Time Model SpecTime SpecModel ModelFacts MemberFacts
  Misc SpecMisc Equiv EquivFacts InlineEnums SpecInline.

(** ** The result of a successful run, without the bookkeeping *)
Definition is_enum (f : fielddef) : bool := ts_type (fd_spec f) =?s "Enum".
Definition is_struct (td : typedef) : bool := ts_type (td_spec td) =?s "Struct".
Definition conv_field (t : string) (f : fielddef) : fielddef :=
  if is_enum f then set_spec f (ts_of (synth_name t (fd_name f))) else f.
Definition conv_spec (t : string) (ts : typespec) : typespec :=
  if ts_type ts =?s "Struct" then set_fields ts (map (conv_field t) (ts_fields ts)) else ts.
Definition conv_td (td : typedef) : typedef :=
  if is_struct td then mkTD (td_name td) (td_comment td) (td_annos td) (conv_spec (td_name td) (td_spec td)) else td.
Definition news (td : typedef) : list typedef :=
  if is_struct td
  then map (fun f => mkTD (synth_name (td_name td) (fd_name f)) "" [] (fd_spec f))
           (filter is_enum (ts_fields (td_spec td)))
  else [].

Lemma conv_fields_ok h t fs fs' ns : conv_fields h t fs = (fs', ns, true) ->
  fs' = map (conv_field t) fs
  /\ ns = map (fun f => mkTD (synth_name t (fd_name f)) "" [] (fd_spec f)) (filter is_enum fs)
  /\ forall f, In f fs -> is_enum f = true -> clash h (synth_name t (fd_name f)) (fd_spec f) = false.
Proof.
  revert fs' ns; induction fs as [|f r IH]; intros fs' ns H; simpl in H.
  - injection H as <- <-. repeat split; intros ? [].
  - cbn [map filter]. change (ts_type (fd_spec f) =?s "Enum") with (is_enum f) in H.
    assert (U : conv_field t f = if is_enum f then set_spec f (ts_of (synth_name t (fd_name f))) else f) by reflexivity.
    rewrite U.
    destruct (is_enum f) eqn:E.
    + destruct (clash h (synth_name t (fd_name f)) (fd_spec f)) eqn:Ec; [discriminate|].
      destruct (conv_fields h t r) as [[r' ns'] ok] eqn:Er. injection H as <- <- ->.
      destruct (IH r' ns' eq_refl) as (-> & -> & Hc).
      repeat split. intros g [<-|Hg] Hg'; auto.
    + destruct (conv_fields h t r) as [[r' ns'] ok] eqn:Er. injection H as <- <- ->.
      destruct (IH r' ns' eq_refl) as (-> & -> & Hc).
      repeat split. intros g [<-|Hg] Hg'; [congruence|auto].
Qed.
Lemma conv_fields_total h t fs :
  (forall f, In f fs -> is_enum f = true -> clash h (synth_name t (fd_name f)) (fd_spec f) = false) ->
  snd (conv_fields h t fs) = true.
Proof.
  induction fs as [|f r IH]; intro H; [reflexivity|]. simpl.
  change (ts_type (fd_spec f) =?s "Enum") with (is_enum f).
  assert (IHr : snd (conv_fields h t r) = true) by (apply IH; intros g Hg; apply H; now right).
  destruct (is_enum f) eqn:E.
  - rewrite (H f (or_introl eq_refl) E). destruct (conv_fields h t r) as [[r' ns] ok]. exact IHr.
  - destruct (conv_fields h t r) as [[r' ns] ok]. exact IHr.
Qed.

Lemma conv_types_ok h l l' ns : conv_types h l = (l', ns, true) ->
  l' = map conv_td l /\ ns = flat_map news l
  /\ forall td f, In td l -> is_struct td = true -> In f (ts_fields (td_spec td)) -> is_enum f = true ->
       clash h (synth_name (td_name td) (fd_name f)) (fd_spec f) = false.
Proof.
  revert l' ns; induction l as [|td r IH]; intros l' ns H; simpl in H.
  - injection H as <- <-. repeat split; intros ? ? [].
  - cbn [map flat_map]. unfold conv_td at 1, news at 1.
    change (ts_type (td_spec td) =?s "Struct") with (is_struct td) in H.
    destruct (is_struct td) eqn:E.
    + destruct (conv_fields h (td_name td) (ts_fields (td_spec td))) as [[fs ns1] ok] eqn:Ef.
      destruct ok; [|discriminate].
      destruct (conv_types h r) as [[r' ns2] ok] eqn:Er. injection H as <- <- ->.
      destruct (IH r' ns2 eq_refl) as (-> & -> & Hc).
      destruct (conv_fields_ok _ _ _ _ _ Ef) as (-> & -> & Hc1).
      unfold conv_spec. change (ts_type (td_spec td) =?s "Struct") with (is_struct td). rewrite E.
      repeat split. intros td2 f [<-|Htd] Hs Hf He; [auto|exact (Hc td2 f Htd Hs Hf He)].
    + destruct (conv_types h r) as [[r' ns2] ok] eqn:Er. injection H as <- <- ->.
      destruct (IH r' ns2 eq_refl) as (-> & -> & Hc).
      repeat split. intros td2 f [<-|Htd] Hs Hf He; [congruence|exact (Hc td2 f Htd Hs Hf He)].
Qed.
Lemma conv_types_total h l :
  (forall td f, In td l -> is_struct td = true -> In f (ts_fields (td_spec td)) -> is_enum f = true ->
       clash h (synth_name (td_name td) (fd_name f)) (fd_spec f) = false) ->
  conv_types h l = (map conv_td l, flat_map news l, true).
Proof.
  intro H. assert (T : snd (conv_types h l) = true).
  { induction l as [|td r IH]; [reflexivity|]. simpl.
    change (ts_type (td_spec td) =?s "Struct") with (is_struct td).
    assert (IHr : snd (conv_types h r) = true) by (apply IH; intros td2 f Htd; apply H; now right).
    destruct (is_struct td) eqn:E.
    - assert (Hf : snd (conv_fields h (td_name td) (ts_fields (td_spec td))) = true)
        by (apply conv_fields_total; intros f Hf He; apply H; [now left| | |]; assumption).
      destruct (conv_fields h (td_name td) (ts_fields (td_spec td))) as [[fs ns1] ok]. simpl in Hf. subst ok.
      destruct (conv_types h r) as [[r' ns2] ok]. exact IHr.
    - destruct (conv_types h r) as [[r' ns2] ok]. exact IHr. }
  destruct (conv_types h l) as [[l' ns] ok] eqn:E. simpl in T. subst ok.
  destruct (conv_types_ok _ _ _ _ E) as (-> & -> & _). reflexivity.
Qed.

(** ** Sharing *)
Lemma number_types_In i l n r : In (n, r) (number_types i l) -> exists k td,
  r = IDecl (i + k) /\ nth_error l k = Some td /\ td_name td = n.
Proof.
  revert i; induction l as [|td l IH]; intros i H; simpl in H; [destruct H|]. destruct H as [H|H].
  - injection H as <- <-. exists 0, td. rewrite Nat.add_0_r. auto.
  - destruct (IH _ H) as (k & td' & -> & Hn & He). exists (S k), td'. rewrite Nat.add_succ_r. auto.
Qed.
Lemma number_types_keys i l : keys (number_types i l) = map td_name l.
Proof. revert i; induction l as [|td l IH]; intro i; simpl; [reflexivity|now rewrite IH]. Qed.
Lemma base_keys : keys (map (fun n => (n, IBase n)) base_types) = builtin_names.
Proof. reflexivity. Qed.

Lemma lookup_shared sch : collision_free sch ->
  forall n td, lookup (shared sch) n = Some td <-> declares sch n td.
Proof.
  intros (Hn & Hb & _) n td. unfold lookup, shared. cbn [hm_index hm_types]. rewrite assoc_app.
  destruct (assoc n (map (fun n => (n, IBase n)) base_types)) as [r|] eqn:E.
  - assert (Hin := assoc_In _ _ _ E). apply in_map_iff in Hin. destruct Hin as (b & Hb' & Hbin).
    injection Hb' as <- <-. split.
    + intro H. injection H as <-. left. split; [exact Hbin|reflexivity].
    + intros [[_ ->]|[Htd He]]; [reflexivity|]. exfalso. apply (Hb td Htd). now rewrite He.
  - apply assoc_None in E. rewrite base_keys in E. split.
    + destruct (assoc n (number_types 0 (sc_types sch))) as [r|] eqn:E2; [|discriminate].
      apply assoc_In in E2. apply number_types_In in E2. destruct E2 as (k & td' & -> & Hk & He).
      simpl. rewrite Hk. intro H. injection H as <-. right. split; [eapply nth_error_In; eassumption|exact He].
    + intros [[Hin _]|[Htd He]]; [contradiction|].
      destruct (assoc n (number_types 0 (sc_types sch))) as [r|] eqn:E2.
      * apply assoc_In in E2. apply number_types_In in E2. destruct E2 as (k & td' & -> & Hk & He').
        simpl. rewrite Hk. f_equal. apply nth_error_In in Hk as Hin.
        clear -Hn Htd Hin He He'. subst n. revert Hn Htd Hin He'.
        generalize (sc_types sch) as l. induction l as [|a l IH]; intros Hn Ht Hi He; [destruct Ht|].
        simpl in Hn. inversion Hn as [|x y Hx Hn']; subst.
        destruct Ht as [->|Ht]; destruct Hi as [->|Hi]; [reflexivity| | |auto].
        -- exfalso. apply Hx. rewrite <- He. now apply in_map.
        -- exfalso. apply Hx. rewrite He. now apply in_map.
      * apply assoc_None in E2. rewrite number_types_keys in E2. exfalso. apply E2. rewrite <- He. now apply in_map.
Qed.

Lemma lookup_find sch m : new_model sch = Ok m -> forall n, lookup (shared sch) n = find_type m n.
Proof.
  intros Hm n. assert (Hc : collision_free sch) by (apply (proj2 (proj2 (new_model_iff sch)) m Hm)).
  destruct (find_type m n) as [td|] eqn:E.
  - apply (lookup_shared sch Hc). now apply (find_type_spec sch m Hm).
  - destruct (lookup (shared sch) n) as [td|] eqn:E2; [|reflexivity].
    apply (lookup_shared sch Hc) in E2. apply (find_type_spec sch m Hm) in E2. congruence.
Qed.

Lemma assoc_set_new {A} k (v : A) l : ~ In k (keys l) -> assoc_set k v l = l ++ [(k, v)].
Proof.
  induction l as [|[k' v'] l IH]; intro H; [reflexivity|]. simpl in *.
  assert (E : (k =?s k') = false) by (apply seqb_neq; intros ->; apply H; now left).
  rewrite E, IH by tauto. reflexivity.
Qed.
Lemma index_new_fresh ns : forall i idx, NoDup (map td_name ns) ->
  (forall n, In n (map td_name ns) -> ~ In n (keys idx)) ->
  index_new i ns idx = idx ++ number_types i ns.
Proof.
  induction ns as [|td ns IH]; intros i idx Hn Hf; simpl; [now rewrite app_nil_r|].
  simpl in Hn. inversion Hn as [|x y Hx Hn']; subst.
  rewrite assoc_set_new by (apply Hf; now left). rewrite IH; [now rewrite <- app_assoc|exact Hn'|].
  intros n Hin Hk. unfold keys in Hk. rewrite map_app in Hk. apply in_app_iff in Hk. destruct Hk as [Hk|[Hk|[]]].
  - apply (Hf n); [now right|exact Hk].
  - simpl in Hk. subst n. contradiction.
Qed.
Lemma number_types_app i a b : number_types i (a ++ b) = number_types i a ++ number_types (i + length a) b.
Proof.
  revert i; induction a as [|x a IH]; intro i; simpl; [now rewrite Nat.add_0_r|].
  rewrite IH. now rewrite Nat.add_succ_r.
Qed.
Lemma conv_td_name td : td_name (conv_td td) = td_name td.
Proof. unfold conv_td. destruct (is_struct td); reflexivity. Qed.
Lemma number_types_conv l : forall i, number_types i (map conv_td l) = number_types i l.
Proof. induction l as [|td l IH]; intro i; simpl; [reflexivity|]. now rewrite conv_td_name, IH. Qed.

Lemma NoDup_app_intro {A} (l1 l2 : list A) : NoDup l1 -> NoDup l2 ->
  (forall x, In x l1 -> ~ In x l2) -> NoDup (l1 ++ l2).
Proof.
  induction l1 as [|a l1 IH]; intros H1 H2 Hd; [exact H2|].
  inversion H1 as [|x y Hx Hn]; subst. simpl. constructor.
  - rewrite in_app_iff. intros [H|H]; [auto|]. apply (Hd a); [now left|exact H].
  - apply IH; auto. intros x Hx1. apply Hd. now right.
Qed.
Lemma NoDup_flat_map {A B} (f : A -> list B) l : NoDup l -> (forall a, In a l -> NoDup (f a)) ->
  (forall a b x, In a l -> In b l -> In x (f a) -> In x (f b) -> a = b) -> NoDup (flat_map f l).
Proof.
  induction l as [|a l IH]; intros Hn Hf Hu; [constructor|].
  inversion Hn as [|y z Hy Hn']; subst. simpl. apply NoDup_app_intro.
  - apply Hf. now left.
  - apply IH; [exact Hn'| |].
    + intros b Hb. apply Hf. now right.
    + intros b c x Hb Hc. apply Hu; now right.
  - intros x Hx Hin. apply in_flat_map in Hin. destruct Hin as (b & Hb & Hxb).
    assert (a = b) by (apply (Hu a b x); [now left|now right|exact Hx|exact Hxb]). subst. contradiction.
Qed.
Lemma NoDup_map_inv' {A B} (f : A -> B) l : NoDup (map f l) -> NoDup l.
Proof. apply NoDup_map_inv. Qed.
Lemma NoDup_filter' {A} (p : A -> bool) l : NoDup l -> NoDup (filter p l).
Proof. apply NoDup_filter. Qed.
Lemma NoDup_map_in {A B} (f : A -> B) l : NoDup l ->
  (forall a b, In a l -> In b l -> f a = f b -> a = b) -> NoDup (map f l).
Proof.
  induction l as [|a l IH]; intros Hn Hi; [constructor|]. inversion Hn as [|y z Hy Hn']; subst.
  simpl. constructor.
  - intro H. apply in_map_iff in H. destruct H as (b & Hb & Hin).
    assert (a = b) by (apply Hi; [now left|now right|now symmetry]). subst. contradiction.
  - apply IH; [exact Hn'|]. intros x y Hx Hy'. apply Hi; now right.
Qed.
Lemma map_flat_map {A B C} (g : B -> C) (f : A -> list B) l : map g (flat_map f l) = flat_map (fun a => map g (f a)) l.
Proof. induction l as [|a l IH]; [reflexivity|]. simpl. now rewrite map_app, IH. Qed.

(** ** Fresh names *)
Lemma given_name_synth t f n : given_name capitalize t f n <-> n = synth_name t f.
Proof.
  unfold given_name, synth_name. destruct (has_prefix t (capitalize f)) eqn:E.
  - apply has_prefix_spec in E. split; [|intros ->; left; destruct E as [r Hr]; now exists r].
    intros [(r & _ & H)|[H _]]; [exact H|contradiction].
  - assert (N : ~ exists r, capitalize f = t +++ r) by (rewrite <- has_prefix_spec; congruence).
    split; [|intros ->; right; split; [exact N|reflexivity]].
    intros [(r & H & _)|[_ H]]; [exfalso; apply N; now exists r|exact H].
Qed.

Section Convert.
Variable sch : schema.
Hypothesis Hfree : collision_free sch.
Hypothesis Hfresh : fresh capitalize sch.

Lemma news_In x td : In x (news td) <-> is_struct td = true /\
  exists f, In f (ts_fields (td_spec td)) /\ is_enum f = true
    /\ x = mkTD (synth_name (td_name td) (fd_name f)) "" [] (fd_spec f).
Proof.
  unfold news. destruct (is_struct td).
  - rewrite in_map_iff. split.
    + intros (f & <- & Hf). apply filter_In in Hf. destruct Hf. split; [reflexivity|]. now exists f.
    + intros (_ & f & Hf & He & ->). exists f. split; [reflexivity|]. apply filter_In. auto.
  - split; [intros []|intros [H _]; discriminate].
Qed.
Lemma news_inline x : In x (flat_map news (sc_types sch)) <-> exists td f, inline_enum sch td f
  /\ x = mkTD (synth_name (td_name td) (fd_name f)) "" [] (fd_spec f).
Proof.
  rewrite in_flat_map. unfold inline_enum. split.
  - intros (td & Htd & Hx). apply news_In in Hx. destruct Hx as (Hs & f & Hf & He & ->).
    apply seqb_eq in Hs, He. exists td, f. auto 6.
  - intros (td & f & (Htd & Hs & Hf & He) & ->). exists td. split; [exact Htd|]. apply news_In.
    split; [now apply seqb_eq|]. exists f. split; [exact Hf|]. split; [now apply seqb_eq|reflexivity].
Qed.

Lemma types_nodup : NoDup (sc_types sch).
Proof. destruct Hfree as (Hn & _). now apply NoDup_map_inv in Hn. Qed.

Lemma news_names_nodup : NoDup (map td_name (flat_map news (sc_types sch))).
Proof.
  rewrite map_flat_map. apply NoDup_flat_map.
  - apply types_nodup.
  - intros td Htd. unfold news. destruct (is_struct td) eqn:Es; [|constructor].
    rewrite map_map. simpl. apply seqb_eq in Es. apply NoDup_map_in.
    + apply NoDup_filter. eapply NoDup_map_inv. apply (fr_fields capitalize sch Hfresh td Htd Es).
    + intros f g Hf Hg E. apply filter_In in Hf, Hg. destruct Hf as [Hf Hfe]. destruct Hg as [Hg Hge].
      apply seqb_eq in Hfe, Hge.
      apply (fr_unique capitalize sch Hfresh td f td g (synth_name (td_name td) (fd_name f))).
      * repeat split; assumption.
      * repeat split; assumption.
      * now apply given_name_synth.
      * now apply given_name_synth.
  - intros a b x Ha Hb Hxa Hxb. apply in_map_iff in Hxa, Hxb.
    destruct Hxa as (ta & Ea & Ha'). destruct Hxb as (tb & Eb & Hb').
    apply news_In in Ha', Hb'. destruct Ha' as (Hsa & f & Hf & Hfe & ->). destruct Hb' as (Hsb & g & Hg & Hge & ->).
    simpl in *. unfold is_struct, is_enum in *. rewrite seqb_eq in *.
    apply (fr_unique capitalize sch Hfresh a f b g x).
    + repeat split; assumption.
    + repeat split; assumption.
    + now apply given_name_synth.
    + now apply given_name_synth.
Qed.

Lemma fresh_name td f : inline_enum sch td f ->
  let n := synth_name (td_name td) (fd_name f) in
  ~ In n builtin_names /\ ~ In n (map td_name (sc_types sch))
  /\ forall td2, In td2 (sc_types sch) -> ~ mentions (td_spec td2) n.
Proof.
  intros H n. assert (G : given_name capitalize (td_name td) (fd_name f) n) by now apply given_name_synth.
  split; [exact (fr_builtin capitalize sch Hfresh td f n H G)|].
  split; [exact (fr_declared capitalize sch Hfresh td f n H G)|].
  intros td2 H2. exact (fr_mentioned capitalize sch Hfresh td f n td2 H G H2).
Qed.

Lemma lookup_fresh td f : inline_enum sch td f -> lookup (shared sch) (synth_name (td_name td) (fd_name f)) = None.
Proof.
  intro H. destruct (fresh_name td f H) as (H1 & H2 & _).
  destruct (lookup (shared sch) (synth_name (td_name td) (fd_name f))) as [t|] eqn:E; [|reflexivity].
  apply (lookup_shared sch Hfree) in E. destruct E as [[E _]|[E1 E2]]; [contradiction|].
  exfalso. apply H2. rewrite <- E2. now apply in_map.
Qed.

Definition new_types : list typedef := map conv_td (sc_types sch) ++ flat_map news (sc_types sch).
Definition sch' : schema := with_types sch new_types.

Lemma convert_fresh : convert_inline_enums (shared sch) = (shared sch', true).
Proof.
  unfold convert_inline_enums. cbn [hm_types shared].
  rewrite conv_types_total.
  - unfold sch'. unfold shared at 2. cbn [sc_types with_types]. f_equal. unfold new_types. f_equal.
    cbn [hm_index shared]. rewrite index_new_fresh.
    + rewrite <- app_assoc. rewrite number_types_app. now rewrite number_types_conv, map_length.
    + apply news_names_nodup.
    + intros n Hn Hk. apply in_map_iff in Hn. destruct Hn as (x & <- & Hx).
      apply news_inline in Hx. destruct Hx as (td & f & Hi & ->). cbn [td_name] in Hk.
      unfold keys in Hk. rewrite map_app in Hk. apply in_app_iff in Hk.
      destruct (fresh_name td f Hi) as (H1 & H2 & _). destruct Hk as [Hk|Hk].
      * exact (H1 Hk).
      * fold (keys (number_types 0 (sc_types sch))) in Hk. rewrite number_types_keys in Hk. contradiction.
  - intros td f Htd Hs Hf He. unfold clash. rewrite lookup_fresh; [reflexivity|].
    apply seqb_eq in Hs, He. repeat split; assumption.
Qed.

Lemma new_names : map td_name new_types = map td_name (sc_types sch) ++ map td_name (flat_map news (sc_types sch)).
Proof.
  unfold new_types. rewrite map_app, map_map. f_equal. apply map_ext. exact conv_td_name.
Qed.
Lemma collision_free' : collision_free sch'.
Proof.
  destruct Hfree as (Hn & Hb & Hh). unfold sch'. split; [|split].
  - cbn [sc_types with_types]. rewrite new_names. apply NoDup_app_intro; [exact Hn|apply news_names_nodup|].
    intros n H1 H2. apply in_map_iff in H2. destruct H2 as (x & <- & Hx). apply news_inline in Hx.
    destruct Hx as (td & f & Hi & ->). now apply (proj1 (proj2 (fresh_name td f Hi))).
  - intros td Htd. cbn [sc_types with_types] in Htd. unfold new_types in Htd. apply in_app_iff in Htd.
    destruct Htd as [Htd|Htd].
    + apply in_map_iff in Htd. destruct Htd as (t & <- & Ht). rewrite conv_td_name. now apply Hb.
    + apply news_inline in Htd. destruct Htd as (t & f & Hi & ->). apply (fresh_name t f Hi).
  - exact Hh.
Qed.

(** ** Definitions before and after *)
Lemma conv_td_spec td : td_spec (conv_td td) = conv_spec (td_name td) (td_spec td).
Proof.
  unfold conv_td. destruct (is_struct td) eqn:E; [reflexivity|].
  unfold conv_spec. unfold is_struct in E. now rewrite E.
Qed.
Lemma conv_base n : In n builtin_names -> conv_spec n (ts_of n) = ts_of n.
Proof.
  intro H. unfold conv_spec. destruct (ts_type (ts_of n) =?s "Struct"); reflexivity.
Qed.
Lemma defines_new n ts : defines sch n ts -> defines sch' n (conv_spec n ts).
Proof.
  intros (td & [[Hb ->]|[Htd Hn]] & <-).
  - simpl. rewrite conv_base by exact Hb. exists (mkTD n "" [] (ts_of n)). split; [left; auto|reflexivity].
  - exists (conv_td td). split; [right|].
    + split; [|now rewrite conv_td_name]. cbn. unfold new_types. apply in_app_iff. left. now apply in_map.
    + rewrite conv_td_spec. now rewrite Hn.
Qed.
Lemma defines_enum td f : inline_enum sch td f -> defines sch' (synth_name (td_name td) (fd_name f)) (fd_spec f).
Proof.
  intro H. exists (mkTD (synth_name (td_name td) (fd_name f)) "" [] (fd_spec f)). split; [right|reflexivity].
  split; [|reflexivity]. cbn. unfold new_types. apply in_app_iff. right. apply news_inline. now exists td, f.
Qed.
Lemma defines_old n ts : defines sch' n ts ->
  (exists t, defines sch n t /\ ts = conv_spec n t)
  \/ (exists td f, inline_enum sch td f /\ n = synth_name (td_name td) (fd_name f) /\ ts = fd_spec f).
Proof.
  intros (td & [[Hb ->]|[Htd Hn]] & <-).
  - left. exists (ts_of n). split; [exists (mkTD n "" [] (ts_of n)); split; [left; auto|reflexivity]|].
    simpl. now rewrite conv_base.
  - cbn in Htd. unfold new_types in Htd. apply in_app_iff in Htd. destruct Htd as [Htd|Htd].
    + left. apply in_map_iff in Htd. destruct Htd as (t & <- & Ht). rewrite conv_td_name in Hn. subst n.
      exists (td_spec t). split; [exists t; split; [right; auto|reflexivity]|]. apply conv_td_spec.
    + right. apply news_inline in Htd. destruct Htd as (t & f & Hi & ->). exists t, f. simpl in *. auto.
Qed.

Variable X : ext.
Variable m' : model.
Hypothesis Hm' : new_model sch' = Ok m'.

Lemma defines_fun' n a b : defines sch' n a -> defines sch' n b -> a = b.
Proof. apply (defines_fun sch' m' Hm'). Qed.

Lemma conv_spec_type n ts : ts_type (conv_spec n ts) = ts_type ts.
Proof. unfold conv_spec. destruct (ts_type ts =?s "Struct"); reflexivity. Qed.
Lemma conv_spec_other n ts : ts_type ts <> "Struct" -> conv_spec n ts = ts.
Proof. intro H. apply seqb_neq in H. unfold conv_spec. now rewrite H. Qed.
Lemma conv_spec_fields n ts : ts_type ts = "Struct" -> ts_fields (conv_spec n ts) = map (conv_field n) (ts_fields ts).
Proof. intro H. apply seqb_eq in H. unfold conv_spec. now rewrite H. Qed.
Lemma conv_field_name n f : fd_name (conv_field n f) = fd_name f.
Proof. unfold conv_field. destruct (is_enum f); reflexivity. Qed.
Lemma conv_field_required n f : fd_required (conv_field n f) = fd_required f.
Proof. unfold conv_field. destruct (is_enum f); reflexivity. Qed.

Lemma closed_conv n ts l : ts_type ts = "Struct" ->
  (closed_object (conv_spec n ts) l <-> closed_object ts l).
Proof.
  intro Ht. unfold closed_object. rewrite (conv_spec_fields n ts Ht). split; intros [H1 H2]; split.
  - intros k Hk. destruct (H1 k Hk) as (f & Hf & He). apply in_map_iff in Hf. destruct Hf as (g & <- & Hg).
    exists g. rewrite conv_field_name in He. auto.
  - intros f Hf Hr. rewrite <- (conv_field_name n f). apply H2; [now apply in_map|now rewrite conv_field_required].
  - intros k Hk. destruct (H1 k Hk) as (f & Hf & He). exists (conv_field n f).
    rewrite conv_field_name. split; [now apply in_map|exact He].
  - intros f Hf Hr. apply in_map_iff in Hf. destruct Hf as (g & <- & Hg).
    rewrite conv_field_name. rewrite conv_field_required in Hr. auto.
Qed.

Lemma not_kind n : ~ In n builtin_names -> ~ In n kinds.
Proof. intros H Hk. apply H. simpl in *. tauto. Qed.

Lemma enum_accepts s1 s2 ts v : ts_type ts = "Enum" -> accepts X s1 ts v -> accepts X s2 ts v.
Proof.
  intros Ht H. inversion H; subst; try congruence.
  - rewrite Ht in *. simpl in *. intuition discriminate.
  - eapply ac_enum; eassumption.
  - match goal with R : refers _ _ _ |- _ => destruct R as [R _]; rewrite Ht in R; exfalso; apply R; simpl; tauto end.
Qed.

Lemma defines_struct_inline n ts f : defines sch n ts -> ts_type ts = "Struct" -> In f (ts_fields ts) ->
  is_enum f = true -> exists td, inline_enum sch td f /\ td_name td = n.
Proof.
  intros (td & [[Hb ->]|[Htd Hn]] & <-) Ht Hf He.
  - destruct Hf.
  - exists td. split; [|exact Hn]. repeat split; try assumption. now apply seqb_eq.
Qed.

Lemma forward ts v : accepts X sch ts v ->
  accepts X sch' ts v /\ forall n, defines sch n ts -> accepts X sch' (conv_spec n ts) v.
Proof.
  intro H. induction H as [ts t Ht|ts s t Ht Hx Hr|ts v s Ht Hv Hs Hvs Hp|ts l Ht Hc Hf IH|ts ts' l Ht Hi Hd Hx IH Hs|ts l Ht Hi Hs
    |ts ts' l Ht Hi Hd Hx IH Hs|ts l Ht Hi Hs|ts d Ht Hw|ts b0 Ht|ts b0 Ht|ts v s Ht Hv Hn He|ts s Ht
    |ts v s Ht Hv Hs|ts a0 u d t1 t2 Ht Hsp Hl Hd Hd1 Ha1 IH1 Hd2 Ha2 IH2|ts v Ht|ts v Ht|ts ts' v [Hk Hd] Ha IH].
  4: { split.
    - apply ac_struct; [exact Ht|exact Hc|]. intros f x Hin Hx. exact (proj1 (IH f x Hin Hx)).
    - intros n Hn. apply ac_struct; [now rewrite conv_spec_type|now apply closed_conv|].
      rewrite (conv_spec_fields n ts Ht). intros f x Hin Hx. apply in_map_iff in Hin.
      destruct Hin as (g & <- & Hg). rewrite conv_field_name in Hx. destruct (IH g x Hg Hx) as [A _].
      unfold conv_field. destruct (is_enum g) eqn:E; [|exact A]. simpl.
      destruct (defines_struct_inline n ts g Hn Ht Hg E) as (td & Hi & <-).
      apply (ac_ref X sch' _ (fd_spec g)); [|exact A]. split; [|exact (defines_enum td g Hi)].
      apply not_kind. apply (fresh_name td g Hi). }
  17: { assert (A : accepts X sch' ts v).
    { apply (ac_ref X sch' ts (conv_spec (ts_type ts) ts')).
      - split; [exact Hk|now apply defines_new].
      - apply IH. exact Hd. }
    split; [exact A|]. intros n _. rewrite conv_spec_other; [exact A|]. intro E. apply Hk. rewrite E. simpl. tauto. }
  all: match goal with |- accepts X sch' ?t ?w /\ _ => assert (A : accepts X sch' t w) end.
  all: try (split; [exact A|]; intros n _; rewrite conv_spec_other;
            [exact A|first [congruence|intro E; rewrite E in Ht; simpl in Ht; intuition discriminate]]).
  - now apply ac_time.
  - eapply ac_time_text; eassumption.
  - eapply ac_string; eassumption.
  - eapply ac_array; [exact Ht|exact Hi|apply defines_new; exact Hd| |exact Hs].
    intros x Hin. apply (IH x Hin). exact Hd.
  - now apply ac_array_any.
  - eapply ac_map; [exact Ht|exact Hi|apply defines_new; exact Hd| |exact Hs].
    intros k x Hin. apply (IH k x Hin). exact Hd.
  - now apply ac_map_any.
  - now apply ac_number.
  - now apply ac_bool.
  - now apply ac_pbool.
  - eapply ac_enum; eassumption.
  - now apply ac_uuid.
  - eapply ac_uuid_text; eassumption.
  - eapply ac_unit; [exact Ht|exact Hsp|exact Hl|exact Hd|apply defines_new; exact Hd1|apply IH1; exact Hd1
      |apply defines_new; exact Hd2|apply IH2; exact Hd2].
  - now apply ac_bytes.
  - now apply ac_any.
Qed.

(** A spec that mentions none of the new names. *)
Definition clean (ts : typespec) : Prop := forall td f, inline_enum sch td f ->
  ~ mentions ts (synth_name (td_name td) (fd_name f)).

Lemma defines_clean n ts : defines sch n ts -> clean ts.
Proof.
  intros (td & [[Hb ->]|[Htd Hn]] & <-) td2 f Hi Hm.
  - simpl in Hm. destruct (fresh_name td2 f Hi) as (H1 & _).
    assert (H2 : synth_name (td_name td2) (fd_name f) <> "")
      by (apply (fr_nonempty capitalize sch Hfresh td2 f _ Hi); now apply given_name_synth).
    inversion Hm as [a b Ha|a b Ha|a b Ha|a b Ha|a g b Hg]; cbn in *; try congruence.
  - exact (proj2 (proj2 (fresh_name td2 f Hi)) td Htd Hm).
Qed.
Lemma clean_field ts f : clean ts -> In f (ts_fields ts) -> clean (fd_spec f).
Proof. intros H Hf td g Hi Hm. apply (H td g Hi). now apply mn_field with f. Qed.
Lemma clean_defines ts n t : clean ts -> mentions ts n -> defines sch' n t ->
  exists t0, defines sch n t0 /\ t = conv_spec n t0.
Proof.
  intros Hc Hm Hd. destruct (defines_old n t Hd) as [H|(td & f & Hi & -> & _)]; [exact H|].
  exfalso. exact (Hc td f Hi Hm).
Qed.

Lemma backward ts v : accepts X sch' ts v ->
  (clean ts -> accepts X sch ts v)
  /\ forall n t, defines sch n t -> ts = conv_spec n t -> accepts X sch t v.
Proof.
  intro H. induction H as [ts t Ht|ts s t Ht Hx Hr|ts v s Ht Hv Hs Hvs Hp|ts l Ht Hc Hf IH|ts ts' l Ht Hi Hd Hx IH Hs|ts l Ht Hi Hs
    |ts ts' l Ht Hi Hd Hx IH Hs|ts l Ht Hi Hs|ts d Ht Hw|ts b0 Ht|ts b0 Ht|ts v s Ht Hv Hn He|ts s Ht
    |ts v s Ht Hv Hs|ts a0 u d t1 t2 Ht Hsp Hl Hd Hd1 Ha1 IH1 Hd2 Ha2 IH2|ts v Ht|ts v Ht|ts ts' v [Hk Hd] Ha IH].
  4: { split.
    - intro Hcl. apply ac_struct; [exact Ht|exact Hc|]. intros f x Hin Hx. apply (IH f x Hin Hx).
      now apply clean_field with ts.
    - intros n t Hn ->. rewrite conv_spec_type in Ht. apply closed_conv in Hc; [|exact Ht].
      rewrite (conv_spec_fields n t Ht) in *. apply ac_struct; [exact Ht|exact Hc|].
      intros f x Hin Hx. assert (Hin' := in_map (conv_field n) _ _ Hin).
      assert (Hx' : In (fd_name (conv_field n f), x) l) by (rewrite conv_field_name; exact Hx).
      destruct (is_enum f) eqn:E.
      + assert (A := Hf _ x Hin' Hx'). unfold conv_field in A. rewrite E in A. simpl in A.
        destruct (defines_struct_inline n t f Hn Ht Hin E) as (td & Hi & <-).
        apply (enum_accepts sch' sch); [now apply seqb_eq|].
        refine (accepts_ref_inv X sch' m' Hm' _ _ _ _ A).
        split; [|exact (defines_enum td f Hi)]. apply not_kind. apply (fresh_name td f Hi).
      + assert (B := IH _ x Hin' Hx'). unfold conv_field in B. rewrite E in B. apply B.
        apply clean_field with t; [|exact Hin]. exact (defines_clean n t Hn). }
  17: { assert (A : clean ts -> accepts X sch ts v).
    { intro Hcl. destruct (clean_defines ts (ts_type ts) ts' Hcl (mn_type ts) Hd) as (t0 & Hd0 & ->).
      apply (ac_ref X sch ts t0); [split; assumption|]. exact (proj2 IH _ t0 Hd0 eq_refl). }
    split; [exact A|]. intros n t Hn E. assert (Et : ts = t).
    { rewrite E. apply conv_spec_other. intro F. apply Hk. rewrite E, conv_spec_type, F. simpl. tauto. }
    rewrite <- Et. apply A. rewrite Et. exact (defines_clean n t Hn). }
  all: match goal with |- (clean ?t -> accepts X sch ?t ?w) /\ _ => assert (A : clean t -> accepts X sch t w) end.
  all: try (split; [exact A|]; intros n t9 Hn9 E9; assert (Et : ts = t9);
     [rewrite E9; apply conv_spec_other; intro F; rewrite E9, conv_spec_type, F in Ht;
      first [discriminate|simpl in Ht; intuition discriminate]
     |rewrite <- Et; apply A; rewrite Et; exact (defines_clean n t9 Hn9)]).
  all: intro Hcl.
  - now apply ac_time.
  - eapply ac_time_text; eassumption.
  - eapply ac_string; eassumption.
  - destruct (clean_defines ts _ ts' Hcl (mn_items ts) Hd) as (t0 & Hd0 & ->).
    eapply ac_array; [exact Ht|exact Hi|exact Hd0| |exact Hs].
    intros x Hin. exact (proj2 (IH x Hin) _ t0 Hd0 eq_refl).
  - now apply ac_array_any.
  - destruct (clean_defines ts _ ts' Hcl (mn_items ts) Hd) as (t0 & Hd0 & ->).
    eapply ac_map; [exact Ht|exact Hi|exact Hd0| |exact Hs].
    intros k x Hin. exact (proj2 (IH k x Hin) _ t0 Hd0 eq_refl).
  - now apply ac_map_any.
  - now apply ac_number.
  - now apply ac_bool.
  - now apply ac_pbool.
  - eapply ac_enum; eassumption.
  - now apply ac_uuid.
  - eapply ac_uuid_text; eassumption.
  - destruct (clean_defines ts _ _ Hcl (mn_value ts) Hd1) as (v0 & Hv0 & ->).
    destruct (clean_defines ts _ _ Hcl (mn_unit ts) Hd2) as (u0 & Hu0 & ->).
    eapply ac_unit; [exact Ht|exact Hsp|exact Hl|exact Hd|exact Hv0|exact (proj2 IH1 _ v0 Hv0 eq_refl)
      |exact Hu0|exact (proj2 IH2 _ u0 Hu0 eq_refl)].
  - now apply ac_bytes.
  - now apply ac_any.
Qed.
End Convert.

(** ** Without freshness *)
Lemma clash_false h tn ts : clash h tn ts = false <->
  forall td, lookup h tn = Some td ->
    equivalent (mkModel (schema_of [] []) [] []) 1 false (td_spec td) ts = Ok true.
Proof.
  unfold clash. destruct (lookup h tn) as [td|].
  - destruct (equivalent (mkModel (schema_of [] []) [] []) 1 false (td_spec td) ts) as [[]| | |] eqn:E;
      split; intro H; try discriminate; try reflexivity.
    1: intros td' Ht; injection Ht as <-; exact E.
    all: specialize (H td eq_refl); congruence.
  - split; [intros _ td H; discriminate|reflexivity].
Qed.
Lemma enum_equivalent m a b : ts_type b = "Enum" ->
  (equivalent m 1 false a b = Ok true <->
   ts_type a = "Enum" /\ length (ts_elements a) = length (ts_elements b)
   /\ incl (map ee_symbol (ts_elements b)) (map ee_symbol (ts_elements a))).
Proof.
  intro Hb. simpl. unfold equiv_step. rewrite Hb. destruct (ts_type a =?s "Enum") eqn:E.
  - apply seqb_eq in E. rewrite E. cbn -[covered symbols Nat.eqb]. rewrite Ok_true, andb_true_iff, Nat.eqb_eq, covered_iff.
    unfold symbols. tauto.
  - simpl. apply seqb_neq in E. split; [discriminate|intros [H _]; contradiction].
Qed.

Lemma conv_noop h l : (forall td f, In td l -> ts_type (td_spec td) = "Struct" ->
    In f (ts_fields (td_spec td)) -> ts_type (fd_spec f) <> "Enum") ->
  conv_types h l = (l, [], true).
Proof.
  intro H. rewrite conv_types_total.
  - assert (M : forall td, In td l -> conv_td td = td /\ news td = []).
    { intros td Htd. unfold conv_td, news. destruct (is_struct td) eqn:E; [|auto]. unfold is_struct in E.
      unfold conv_spec. rewrite E. apply seqb_eq in E.
      assert (Hf : forall f, In f (ts_fields (td_spec td)) -> is_enum f = false)
        by (intros f Hf; apply seqb_neq; exact (H td f Htd E Hf)).
      split.
      - assert (Em : map (conv_field (td_name td)) (ts_fields (td_spec td)) = ts_fields (td_spec td)).
        { rewrite <- map_id. apply map_ext_in. intros f Hin. unfold conv_field. now rewrite (Hf f Hin). }
        rewrite Em. destruct td as [a b c ts]. destruct ts. reflexivity.
      - assert (Ef : filter is_enum (ts_fields (td_spec td)) = []).
        { clear -Hf. induction (ts_fields (td_spec td)) as [|f r IH]; [reflexivity|]. simpl.
          rewrite (Hf f) by now left. apply IH. intros g Hg. apply Hf. now right. }
        now rewrite Ef. }
    f_equal. f_equal.
    + rewrite <- map_id. apply map_ext_in. intros td Htd. apply M, Htd.
    + clear H. induction l as [|td l IH]; [reflexivity|]. simpl. rewrite (proj2 (M td (or_introl eq_refl))).
      apply IH. intros t Ht. apply M. now right.
  - intros td f Htd Hs Hf He. apply seqb_eq in Hs, He. exfalso. exact (H td f Htd Hs Hf He).
Qed.

Lemma convert_inv h h' : convert_inline_enums h = (h', true) ->
  hm_types h' = map conv_td (hm_types h) ++ flat_map news (hm_types h)
  /\ hm_index h' = index_new (length (hm_types h)) (flat_map news (hm_types h)) (hm_index h)
  /\ (forall td f, In td (hm_types h) -> is_struct td = true -> In f (ts_fields (td_spec td)) -> is_enum f = true ->
       clash h (synth_name (td_name td) (fd_name f)) (fd_spec f) = false).
Proof.
  unfold convert_inline_enums. destruct (conv_types h (hm_types h)) as [[l ns] ok] eqn:E.
  destruct ok; intro H; [|discriminate]. injection H as <-.
  destruct (conv_types_ok _ _ _ _ E) as (-> & -> & Hc). simpl. now rewrite map_length.
Qed.

Lemma no_inline_left sch m h' : new_model sch = Ok m -> no_empty_enum sch ->
  convert_inline_enums (shared sch) = (h', true) ->
  forall td f, In td (hm_types h') -> ts_type (td_spec td) = "Struct" ->
    In f (ts_fields (td_spec td)) -> ts_type (fd_spec f) <> "Enum".
Proof.
  intros Hm Hne Hc td f Htd Ht Hf. destruct (convert_inv _ _ Hc) as (E & _ & Hcl).
  rewrite E in Htd. apply in_app_iff in Htd. cbn [hm_types shared] in *. destruct Htd as [Htd|Htd].
  - apply in_map_iff in Htd. destruct Htd as (t & <- & Hin). rewrite conv_td_spec in Ht, Hf.
    assert (Ht' : ts_type (td_spec t) = "Struct") by (rewrite conv_spec_type in Ht; exact Ht).
    rewrite (conv_spec_fields (td_name t) (td_spec t) Ht') in Hf. apply in_map_iff in Hf. destruct Hf as (g & <- & Hg).
    unfold conv_field. destruct (is_enum g) eqn:Eg; [|now apply seqb_neq]. simpl. intro En.
    assert (Hb : clash (shared sch) (synth_name (td_name t) (fd_name g)) (fd_spec g) = false)
      by (apply (Hcl t g Hin); [now apply seqb_eq|exact Hg|exact Eg]).
    rewrite En in Hb. rewrite clash_false in Hb.
    assert (Hl : lookup (shared sch) "Enum" = Some (base_typedef "Enum")) by reflexivity.
    specialize (Hb _ Hl). apply seqb_eq in Eg. apply enum_equivalent in Hb; [|exact Eg].
    destruct Hb as (_ & Hlen & _). simpl in Hlen.
    apply (Hne t g); [repeat split; assumption|]. now destruct (ts_elements (fd_spec g)).
  - exfalso. apply in_flat_map in Htd. destruct Htd as (t & _ & Hn). apply news_In in Hn.
    destruct Hn as (_ & g & _ & Hg & ->). simpl in Ht. apply seqb_eq in Hg. congruence.
Qed.

Lemma convert_twice sch m h' : new_model sch = Ok m -> no_empty_enum sch ->
  convert_inline_enums (shared sch) = (h', true) -> convert_inline_enums h' = (h', true).
Proof.
  intros Hm Hne Hc. unfold convert_inline_enums at 1. rewrite conv_noop.
  - simpl. rewrite app_nil_r. destruct h'; reflexivity.
  - exact (no_inline_left sch m h' Hm Hne Hc).
Qed.

Lemma convert_fails_iff sch m : new_model sch = Ok m ->
  (snd (convert_inline_enums (shared sch)) = false <->
   exists td f n td2, inline_enum sch td f /\ given_name capitalize (td_name td) (fd_name f) n
     /\ declares sch n td2
     /\ ~ (ts_type (td_spec td2) = "Enum"
           /\ length (ts_elements (td_spec td2)) = length (ts_elements (fd_spec f))
           /\ incl (map ee_symbol (ts_elements (fd_spec f))) (map ee_symbol (ts_elements (td_spec td2))))).
Proof.
  intro Hm. assert (Hc : collision_free sch) by (apply (proj2 (proj2 (new_model_iff sch)) m Hm)). split.
  - intro H.
    assert (N : ~ (forall td f, In td (sc_types sch) -> is_struct td = true -> In f (ts_fields (td_spec td)) -> is_enum f = true ->
       clash (shared sch) (synth_name (td_name td) (fd_name f)) (fd_spec f) = false)).
    { intro A. unfold convert_inline_enums in H. cbn [hm_types shared] in H. rewrite (conv_types_total _ _ A) in H.
      discriminate. }
    set (bad := fun td f => is_enum f && clash (shared sch) (synth_name (td_name td) (fd_name f)) (fd_spec f)).
    destruct (existsb (fun td => is_struct td && existsb (bad td) (ts_fields (td_spec td))) (sc_types sch)) eqn:Ex.
    + apply existsb_exists in Ex. destruct Ex as (td & Htd & Ex). apply andb_true_iff in Ex. destruct Ex as [Hs Ex].
      apply existsb_exists in Ex. destruct Ex as (f & Hf & Hb). apply andb_true_iff in Hb. destruct Hb as [He Hb].
      apply seqb_eq in Hs, He. unfold clash in Hb.
      destruct (lookup (shared sch) (synth_name (td_name td) (fd_name f))) as [td2|] eqn:El; [|discriminate].
      exists td, f, (synth_name (td_name td) (fd_name f)), td2.
      split; [repeat split; assumption|]. split; [now apply given_name_synth|].
      split; [now apply (lookup_shared sch Hc)|]. intro C. apply (enum_equivalent (mkModel (schema_of [] []) [] [])) in C; [|exact He].
      rewrite C in Hb. discriminate.
    + exfalso. apply N. intros td f Htd Hs Hf He.
      destruct (clash (shared sch) (synth_name (td_name td) (fd_name f)) (fd_spec f)) eqn:Ec; [|reflexivity].
      assert (T : existsb (fun td => is_struct td && existsb (bad td) (ts_fields (td_spec td))) (sc_types sch) = true).
      { apply existsb_exists. exists td. split; [exact Htd|]. rewrite Hs. simpl. apply existsb_exists. exists f.
        split; [exact Hf|]. unfold bad. now rewrite He, Ec. }
      congruence.
  - intros (td & f & n & td2 & (Htd & Hs & Hf & He) & Hn & Hd & Hneq). apply given_name_synth in Hn. subst n.
    destruct (convert_inline_enums (shared sch)) as [h' ok] eqn:E. destruct ok; [|reflexivity]. exfalso.
    destruct (convert_inv _ _ E) as (_ & _ & Hcl).
    assert (C : clash (shared sch) (synth_name (td_name td) (fd_name f)) (fd_spec f) = false)
      by (apply (Hcl td f Htd); [now apply seqb_eq|exact Hf|now apply seqb_eq]).
    rewrite clash_false in C. apply Hneq.
    apply (enum_equivalent (mkModel (schema_of [] []) [] [])); [exact He|]. apply C.
    now apply (lookup_shared sch Hc).
Qed.

(** On error: no type appears, disappears or is renamed, and only struct fields that had an inline enum changed. *)
Lemma conv_fields_err h t fs fs' ns : conv_fields h t fs = (fs', ns, false) ->
  Forall2 (fun f f' => f' = f \/ f' = conv_field t f) fs fs'.
Proof.
  assert (R : forall l : list fielddef, Forall2 (fun f f' => f' = f \/ f' = conv_field t f) l l)
    by (induction l; constructor; auto).
  revert fs' ns; induction fs as [|f r IH]; intros fs' ns H; simpl in H; [discriminate|].
  destruct (ts_type (fd_spec f) =?s "Enum") eqn:E.
  - destruct (clash h (synth_name t (fd_name f)) (fd_spec f)).
    + injection H as <- <-. apply R.
    + destruct (conv_fields h t r) as [[r' ns'] ok] eqn:Er. injection H as <- <- ->.
      constructor; [right; unfold conv_field, is_enum; now rewrite E|]. exact (IH r' ns' eq_refl).
  - destruct (conv_fields h t r) as [[r' ns'] ok] eqn:Er. injection H as <- <- ->.
    constructor; [now left|]. exact (IH r' ns' eq_refl).
Qed.
Lemma conv_types_err h l l' ns : conv_types h l = (l', ns, false) ->
  Forall2 (fun td td' => td_name td' = td_name td /\ (ts_type (td_spec td) <> "Struct" -> td' = td)) l l'.
Proof.
  assert (R : forall l : list typedef,
     Forall2 (fun td td' => td_name td' = td_name td /\ (ts_type (td_spec td) <> "Struct" -> td' = td)) l l)
    by (induction l0; constructor; auto).
  revert l' ns; induction l as [|td r IH]; intros l' ns H; simpl in H; [discriminate|].
  destruct (ts_type (td_spec td) =?s "Struct") eqn:E.
  - apply seqb_eq in E.
    destruct (conv_fields h (td_name td) (ts_fields (td_spec td))) as [[fs ns1] ok] eqn:Ef. destruct ok.
    + destruct (conv_types h r) as [[r' ns2] ok] eqn:Er. injection H as <- <- ->.
      constructor; [split; [reflexivity|contradiction]|]. exact (IH r' ns2 eq_refl).
    + injection H as <- <-. constructor; [split; [reflexivity|contradiction]|apply R].
  - destruct (conv_types h r) as [[r' ns2] ok] eqn:Er. injection H as <- <- ->.
    constructor; [auto|]. exact (IH r' ns2 eq_refl).
Qed.
Lemma convert_err h h' : convert_inline_enums h = (h', false) ->
  hm_index h' = hm_index h /\
  Forall2 (fun td td' => td_name td' = td_name td /\ (ts_type (td_spec td) <> "Struct" -> td' = td))
    (hm_types h) (hm_types h').
Proof.
  unfold convert_inline_enums. destruct (conv_types h (hm_types h)) as [[l ns] ok] eqn:E. destruct ok; intro H.
  - discriminate.
  - injection H as <-. split; [reflexivity|]. exact (conv_types_err _ _ _ _ E).
Qed.

Lemma meaning_preserved X sch m : new_model sch = Ok m -> fresh capitalize sch ->
  exists sch2 m2, convert_inline_enums (shared sch) = (shared sch2, true)
    /\ sch2 = with_types sch (sc_types sch2) /\ new_model sch2 = Ok m2
    /\ NoDup (map td_name (sc_types sch2))
    /\ (forall n ts, defines sch n ts -> exists ts2, defines sch2 n ts2
          /\ forall v, accepts X sch2 ts2 v <-> accepts X sch ts v).
Proof.
  intros Hm Hf. assert (Hc : collision_free sch) by (apply (proj2 (proj2 (new_model_iff sch)) m Hm)).
  assert (Hc' := collision_free' sch Hc Hf).
  destruct (proj1 (new_model_iff (sch' sch)) Hc') as [m2 E2].
  exists (sch' sch), m2. split; [exact (convert_fresh sch Hc Hf)|]. split; [reflexivity|]. split; [exact E2|].
  split; [apply Hc'|]. intros n ts Hd. exists (conv_spec n ts). split; [now apply defines_new|]. intro v. split.
  - intro A. exact (proj2 (backward sch Hf X m2 E2 _ v A) n ts Hd eq_refl).
  - intro A. exact (proj2 (forward sch Hf X ts v A) n Hd).
Qed.
