(** When loading a JSON text crashes. *)
From Verif Require Import GoStr Outcome Value Schema Time Model ReadFacts JsonAst.

Section Json_ind.
Variable P : json -> Prop.
Hypotheses (Hn : P JNull) (Hb : forall b, P (JBool b)) (Hd : forall d, P (JNum d)) (Hs : forall s, P (JStr s))
  (Ha : forall l, Forall P l -> P (JArr l)) (Ho : forall l, Forall (fun kv => P (snd kv)) l -> P (JObj l)).
Fixpoint json_ind' (j : json) : P j :=
  match j with
  | JNull => Hn
  | JBool b => Hb b
  | JNum d => Hd d
  | JStr s => Hs s
  | JArr l => Ha l ((fix go l : Forall P l := match l with [] => Forall_nil _ | x :: r => Forall_cons _ (json_ind' x) (go r) end) l)
  | JObj l => Ho l ((fix go l : Forall (fun kv => P (snd kv)) l :=
                       match l with [] => Forall_nil _ | kv :: r => Forall_cons _ (json_ind' (snd kv)) (go r) end) l)
  end.
End Json_ind.

Definition calm {A} (r : result unit A) : Prop := r <> Panic /\ r <> OutOfFuel.
Lemma calm_ok {A} (a : A) : calm (Ok a). Proof. split; discriminate. Qed.
Lemma calm_err {A} : calm (@Err unit A tt). Proof. split; discriminate. Qed.
Lemma calm_bind {A B} (r : result unit A) (k : A -> result unit B) : calm r -> (forall a, calm (k a)) -> calm (rbind r k).
Proof. intros [H1 H2] H. destruct r; cbn; try congruence; [apply H|split; discriminate]. Qed.
Lemma calm_at {A} k (f : json -> result unit A) d l : calm d -> (forall kv, In kv l -> calm (f (snd kv))) -> calm (at_key k f d l).
Proof.
  intros D. induction l as [|[k' v] l IH]; intros H; [exact D|]. cbn [at_key]. destruct (k =?s k').
  - exact (H (k', v) (or_introl eq_refl)).
  - apply IH. intros kv I. apply H. right. exact I.
Qed.
Lemma calm_each {A} (f : json -> result unit A) l : (forall j, In j l -> calm (f j)) -> calm (each f l).
Proof.
  induction l as [|j l IH]; intros H; [apply calm_ok|]. cbn [each]. apply calm_bind; [apply H; left; reflexivity|]. intros x.
  apply calm_bind; [|intros; apply calm_ok]. apply IH. intros j' I. apply H. right. exact I.
Qed.
Lemma calm_list {A} (f : json -> result unit A) j : (forall l x, j = JArr l -> In x l -> calm (f x)) -> calm (r_list f j).
Proof. intros H. destruct j; cbn; try apply calm_err; try apply calm_ok. apply calm_each. intros x I. exact (H _ x eq_refl I). Qed.
Lemma calm_str j : calm (r_str j).
Proof. destruct j; cbn; try apply calm_err; apply calm_ok. Qed.
Lemma calm_bool j : calm (r_bool j).
Proof. destruct j; cbn; try apply calm_err; apply calm_ok. Qed.
Lemma calm_int b j : calm (r_int b j).
Proof. destruct j; cbn; try apply calm_err; try apply calm_ok. destruct (whole d); [|apply calm_err]. destruct (_ && _); [apply calm_ok|apply calm_err]. Qed.
Lemma calm_status j : calm (r_status j).
Proof. apply calm_bind; [apply calm_int|]. intros; apply calm_ok. Qed.
Lemma calm_values j : calm (r_values j).
Proof. destruct j; cbn; try apply calm_err; try apply calm_ok. apply calm_bind; [apply calm_each; intros; apply calm_str|]. intros; apply calm_ok. Qed.
Lemma calm_annos j : calm (r_annos j).
Proof.
  destruct j; cbn; try apply calm_err; try apply calm_ok. induction l as [|[k v] l IH]; cbn; [apply calm_ok|].
  apply calm_bind; [apply calm_str|]. intros s. apply calm_bind; [exact IH|]. intros; apply calm_ok.
Qed.
Lemma calm_strat k l : calm (str_at k l).
Proof. apply calm_at; [apply calm_ok|]. intros; apply calm_str. Qed.
Lemma calm_annosat l : calm (annos_at l).
Proof. apply calm_at; [apply calm_ok|]. intros; apply calm_annos. Qed.
Lemma calm_obj {A} (f : list (string * json) -> result unit A) j : (forall l, calm (f l)) -> calm (r_obj f j).
Proof. intros H. destruct j; cbn; try apply calm_err. apply H. Qed.

Section Calm.
Context (f64 : decimal -> option decimal) (num : decimal -> decimal).
Lemma calm_dec j : calm (r_dec num j).
Proof. destruct j; cbn; try apply calm_err; apply calm_ok. Qed.
Lemma calm_value j : calm (r_value f64 j).
Proof.
  induction j as [| | | |l IH|l IH] using json_ind'; cbn [r_value]; try apply calm_ok.
  - destruct (f64 d); [apply calm_ok|apply calm_err].
  - apply calm_bind; [|intros; apply calm_ok]. apply calm_each. intros x I. rewrite Forall_forall in IH. apply IH, I.
  - apply calm_bind; [|intros; apply calm_ok]. induction IH as [|[k v] l H F IHl]; [apply calm_ok|].
    apply calm_bind; [exact H|]. intros x. apply calm_bind; [exact IHl|]. intros; apply calm_ok.
Qed.
Ltac calm := repeat (apply calm_bind; [first [apply calm_strat | apply calm_annosat | (apply calm_at; [apply calm_ok|]; intros;
   first [apply calm_bool | apply calm_value | apply calm_int | apply calm_dec | apply calm_values | apply calm_status]) ]|intros ?]); try apply calm_ok.
Lemma calm_element j : calm (r_element j).
Proof. apply calm_obj. intros l. calm. Qed.
Lemma calm_spec j : calm (r_spec f64 num j).
Proof.
  enough (calm (r_spec f64 num j) /\ forall l x, j = JArr l -> In x l -> calm (r_spec f64 num x)) by tauto.
  induction j as [| | | |l IH|l IH] using json_ind'; (split; [|intros l' x E I; try discriminate E]); try apply calm_err.
  - injection E as ->. rewrite Forall_forall in IH. apply IH, I.
  - cbn [r_spec]. rewrite Forall_forall in IH.
    calm. apply calm_bind.
    { apply calm_at; [apply calm_ok|]. intros [k j] I. destruct (IH _ I) as [_ H]. cbn [snd] in *.
      apply calm_list. intros l' x E J. apply calm_bind; [exact (H l' x E J)|]. intros s. apply calm_obj. intros l2. calm. }
    intros fs. apply calm_bind.
    { apply calm_at; [apply calm_ok|]. intros kv I. apply calm_list. intros. apply calm_element. }
    intros els. calm. apply calm_bind.
    { apply calm_at; [apply calm_ok|]. intros [k j] I. destruct (IH _ I) as [_ H]. cbn [snd] in *.
      apply calm_list. intros l' x E J. apply calm_bind; [exact (H l' x E J)|]. intros s. apply calm_obj. intros l2. calm. }
    intros vars. calm.
Qed.
Lemma calm_field j : calm (r_field f64 num j).
Proof. apply calm_bind; [apply calm_spec|]. intros s. apply calm_obj. intros l. calm. Qed.
Lemma calm_typedef j : calm (r_typedef f64 num j).
Proof. apply calm_bind; [apply calm_spec|]. intros ?. apply calm_obj. intros l. calm. Qed.
Lemma calm_output j : calm (r_output f64 num j).
Proof. apply calm_bind; [apply calm_spec|]. intros ?. apply calm_obj. intros l. calm. Qed.
Lemma calm_example j : calm (r_example f64 j).
Proof. apply calm_obj. intros l. calm. Qed.
Lemma calm_lists {A} k (f : json -> result unit A) l : (forall j, calm (f j)) -> calm (at_key k (r_list f) (Ok []) l).
Proof. intros H. apply calm_at; [apply calm_ok|]. intros kv I. apply calm_list. intros. apply H. Qed.
Lemma calm_op j : calm (r_op f64 num j).
Proof.
  apply calm_obj. intros l. calm. apply calm_bind; [apply calm_lists, calm_field|]. intros ?. apply calm_bind; [apply calm_lists, calm_output|]. intros ?.
  apply calm_bind; [apply calm_lists, calm_str|]. intros ?. apply calm_ok.
Qed.
Lemma calm_param j : calm (r_param f64 num j).
Proof. apply calm_bind; [apply calm_field|]. intros ?. apply calm_obj. intros l. calm. Qed.
Lemma calm_expected j : calm (r_expected f64 num j).
Proof. apply calm_obj. intros l. apply calm_bind; [apply calm_lists, calm_param|]. intros ?. calm. Qed.
Lemma calm_exception j : calm (r_exception j).
Proof. apply calm_obj. intros l. calm. Qed.
Lemma calm_option {A} (f : json -> result unit A) j : calm (f j) -> calm (r_option f j).
Proof. intros H. destruct j; cbn; try apply calm_ok; (apply calm_bind; [exact H|intros; apply calm_ok]). Qed.
Lemma calm_http j : calm (r_http f64 num j).
Proof.
  apply calm_obj. intros l. calm. apply calm_bind; [apply calm_lists, calm_param|]. intros ?.
  apply calm_bind; [apply calm_at; [apply calm_ok|intros; apply calm_option, calm_expected]|]. intros ?.
  apply calm_bind; [apply calm_lists, calm_exception|]. intros ?. apply calm_ok.
Qed.

(** what was null *)
Lemma option_null {A} (f : json -> result unit A) j : r_option f j = Ok None -> j = JNull.
Proof. destruct j; cbn; auto; intros H; apply rbind_Ok in H as (x & _ & H); discriminate. Qed.
Lemma each_null {A} (f : json -> result unit A) l l' : each (r_option f) l = Ok l' -> snd (up_to_nil l') = true -> In JNull l.
Proof.
  revert l'. induction l as [|j l IH]; intros l' H U; cbn [each] in H.
  - injection H as <-. discriminate U.
  - apply rbind_Ok in H as (x & H1 & H). apply rbind_Ok in H as (xs & H2 & H). injection H as <-. cbn [up_to_nil] in U.
    destruct x as [x|].
    + right. apply (IH xs H2). destruct (up_to_nil xs) as [a b]. exact U.
    + left. now apply (option_null f).
Qed.
Lemma list_null {A} k (f : json -> result unit A) l l' : at_key k (r_list (r_option f)) (Ok []) l = Ok l' -> snd (up_to_nil l') = true ->
  exists a, assoc k l = Some (JArr a) /\ In JNull a.
Proof.
  induction l as [|[k' v] l IH]; cbn [at_key assoc]; intros H U.
  - injection H as <-. discriminate U.
  - destruct (k =?s k'); [|apply IH; assumption]. destruct v; cbn in H; try discriminate.
    + injection H as <-. discriminate U.
    + exists l0. split; [reflexivity|]. eapply each_null; eassumption.
Qed.
Lemma load_crash text : load_model f64 num text = Panic ->
  exists l, text = Some (JObj l) /\ ((exists a, assoc "types" l = Some (JArr a) /\ In JNull a) \/ (exists a, assoc "http" l = Some (JArr a) /\ In JNull a)).
Proof.
  destruct text as [[| | | | |l]|]; try discriminate. intros H. exists l. split; [reflexivity|].
  unfold load_model in H.
  assert (B : forall {A B} (r : result unit A) (k : A -> result unit B), rbind r k = Panic -> calm r -> exists a, r = Ok a /\ k a = Panic).
  { intros A B0 r k E [C1 C2]. destruct r; cbn in E; try congruence. eauto. }
  apply B in H as (sadl & _ & H); [|apply calm_strat]. apply B in H as (name & _ & H); [|apply calm_strat].
  apply B in H as (ns & _ & H); [|apply calm_strat]. apply B in H as (v & _ & H); [|apply calm_strat].
  apply B in H as (c & _ & H); [|apply calm_strat].
  apply B in H as (tds & HT & H); [|apply calm_lists; intros; apply calm_option, calm_typedef].
  apply B in H as (exs & _ & H); [|apply calm_lists, calm_example]. apply B in H as (ops & _ & H); [|apply calm_lists, calm_op].
  apply B in H as (hs & HH & H); [|apply calm_lists; intros; apply calm_option, calm_http].
  apply B in H as (base & _ & H); [|apply calm_strat]. apply B in H as (a & _ & H); [|apply calm_annosat].
  destruct (sadl =?s ""); [discriminate|].
  destruct (up_to_nil tds) as [tds' tnil] eqn:ET. destruct tnil.
  - left. apply (list_null _ _ _ _ HT). now rewrite ET.
  - destruct (up_to_nil hs) as [hs' hnil] eqn:EH. destruct hnil.
    + right. apply (list_null _ _ _ _ HH). now rewrite EH.
    + destruct (new_model _); discriminate.
Qed.
Lemma load_total text : load_model f64 num text <> OutOfFuel.
Proof.
  destruct text as [[| | | | |l]|]; try discriminate. unfold load_model.
  assert (B : forall {A B} (r : result unit A) (k : A -> result unit B), calm r -> (forall a, k a <> OutOfFuel) -> rbind r k <> OutOfFuel).
  { intros A B0 r k [C1 C2] H. destruct r; cbn; auto; discriminate. }
  repeat (apply B; [first [apply calm_strat | apply calm_annosat | apply calm_lists; intros; apply calm_option, calm_typedef | apply calm_lists, calm_example
    | apply calm_lists, calm_op | apply calm_lists; intros; apply calm_option, calm_http]|intros ?]).
  destruct (_ =?s _); [discriminate|]. destruct (up_to_nil _) as [tds' []]; [|destruct (up_to_nil _) as [hs' []]]; destruct (new_model _); discriminate.
Qed.
(** a written text has no null there *)
Lemma assoc_entries_none k bl : ~ In k (map fst bl) -> assoc k (entries bl) = None.
Proof.
  induction bl as [|[k' [j|]] bl IH]; intros N; [reflexivity| |]; cbn [entries assoc].
  - destruct (String.eqb_spec k k') as [->|]; [destruct N; left; reflexivity|]. apply IH. intros I. apply N. right. exact I.
  - apply IH. intros I. apply N. right. exact I.
Qed.
Lemma pretty_no_crash m : load_model f64 num (pretty m) <> Panic.
Proof.
  intros H. apply load_crash in H as (l & E & H). unfold pretty in E. destruct (finite _); [|discriminate]. unfold w_schema in E.
  match type of E with Some (JObj (entries ?b)) = _ => remember b as bl eqn:EB end. injection E as <-. set (s := m_schema m) in *.
  assert (K : forall {A} (w : A -> json) xs, (forall x, w x <> JNull) -> forall a, w_list w xs = Some (JArr a) -> ~ In JNull a).
  { intros A w xs W a E I. unfold w_list in E. destruct xs as [|x xs]; [discriminate|]. injection E as <-.
    change (In JNull (map w (x :: xs))) in I. apply in_map_iff in I as (y & E & _). exact (W y E). }
  assert (AE : forall k bl o, NoDup (map fst bl) -> assoc k bl = Some o -> assoc k (entries bl) = o).
  { clear. intros k bl. induction bl as [|[k' o'] bl IH]; intros o ND E; [discriminate|]. inversion ND as [|? ? NI ND']; subst. cbn [assoc] in E.
    destruct (String.eqb_spec k k') as [->|NE].
    - injection E as ->. destruct o as [j|]; cbn [entries assoc].
      + now rewrite String.eqb_refl.
      + now apply assoc_entries_none.
    - destruct o' as [j|]; cbn [entries assoc]; [destruct (String.eqb_spec k k'); [congruence|]|]; apply IH; auto. }
  assert (ND : NoDup ["sadl"; "name"; "namespace"; "version"; "comment"; "types"; "examples"; "operations"; "http"; "base"; "annotations"]).
  { repeat (constructor; [intros I; repeat (destruct I as [I|I]; [discriminate I|]); destruct I|]). constructor. }
  destruct H as [(a & E & I) | (a & E & I)].
  - erewrite AE in E; [|subst bl; exact ND|subst bl; reflexivity]. eapply (K _ w_typedef); [|exact E|exact I]. unfold w_typedef. discriminate.
  - erewrite AE in E; [|subst bl; exact ND|subst bl; reflexivity]. eapply (K _ w_http); [|exact E|exact I]. unfold w_http. discriminate.
Qed.
End Calm.
