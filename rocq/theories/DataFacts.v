(** Proofs about data.go. *)
From Verif Require Import GoStr Value Data SpecData.

Lemma get_one l k : d_get (DMap l) [k] = match assoc k l with Some v => v | None => VNil end.
Proof. reflexivity. Qed.
Lemma get_is_loop l ks : d_get (DMap l) ks = get_loop l ks.
Proof. destruct ks as [|k [|k2 r]]; reflexivity. Qed.

Lemma vwf_map_inv l : vwf (VMap l) -> NoDup (keys l) /\ Forall (fun kv => vwf (snd kv)) l.
Proof. intro H. inversion H as [v Ha Hm|l'|l' Hn Hf]; subst; [now destruct (Hm l)|auto]. Qed.

Lemma path_found l ks v : vwf (VMap l) -> at_path l ks v -> d_get (DMap l) ks = v.
Proof.
  intros Hw H. rewrite get_is_loop. induction H as [l k v Hin|l k l' ks v Hin Hp IH].
  - apply vwf_map_inv in Hw. destruct Hw as [Hn _]. simpl.
    now rewrite (assoc_NoDup k v l Hn Hin).
  - apply vwf_map_inv in Hw. destruct Hw as [Hn Hf]. simpl.
    rewrite (assoc_NoDup k _ l Hn Hin). destruct ks as [|k2 r]; [inversion Hp|].
    apply IH. rewrite Forall_forall in Hf. exact (Hf _ Hin).
Qed.

Lemma loop_sound ks : forall l, get_loop l ks <> VNil ->
  exists sub, keeps_last sub ks /\ at_path l sub (get_loop l ks).
Proof.
  induction ks as [|k r IH]; intros l H; [now destruct H|].
  simpl in *. destruct (assoc k l) as [v|] eqn:E.
  - apply assoc_In in E. destruct r as [|k2 r].
    + exists [k]. split; [constructor|now constructor].
    + destruct v; try (now destruct H). destruct (IH l0 H) as (s & Hs & Hp).
      exists (k :: s). split; [now constructor|]. eapply at_more; eassumption.
  - destruct (IH l H) as (s & Hs & Hp). exists s. split; [now constructor|exact Hp].
Qed.
Lemma get_sound d ks : d_get d ks <> VNil ->
  exists l sub, d = DMap l /\ keeps_last sub ks /\ at_path l sub (d_get d ks).
Proof.
  destruct d; try (intro H; now destruct H). rewrite get_is_loop. intro H.
  destruct (loop_sound ks l H) as (s & Hs & Hp). now exists l, s.
Qed.

Lemma get_absent l k : ~ In k (map fst l) -> d_get (DMap l) [k] = VNil.
Proof. intro H. simpl. apply assoc_None in H. now rewrite H. Qed.

(** ** Put *)
Definition holds_map_or_nothing (d : data) : Prop := d = DNil \/ exists l, d = DMap l.

Lemma put_map d k v : holds_map_or_nothing d -> exists l, d_put d k v = DMap l.
Proof. intros [->|[l ->]]; simpl; eauto. Qed.
Lemma put_same d k v : holds_map_or_nothing d -> d_get (d_put d k v) [k] = v.
Proof.
  intros [->|[l ->]]; simpl; [now rewrite seqb_refl|]. now rewrite assoc_set_same.
Qed.
Lemma put_other d k k2 v : k2 <> k -> d_get (d_put d k v) [k2] = d_get d [k2].
Proof.
  intro H. destruct d; simpl; try reflexivity.
  - apply seqb_neq in H. now rewrite H.
  - now rewrite assoc_set_other.
Qed.
Definition puts (d : data) (h : list (string * value)) : data :=
  fold_left (fun d kv => d_put d (fst kv) (snd kv)) h d.
Lemma puts_map h : forall d, holds_map_or_nothing d -> holds_map_or_nothing (puts d h).
Proof.
  induction h as [|[k v] h IH]; intros d H; [exact H|]. simpl. apply IH.
  right. now apply put_map.
Qed.
Lemma puts_other h k : ~ In k (map fst h) -> forall d, d_get (puts d h) [k] = d_get d [k].
Proof.
  induction h as [|[k2 v] h IH]; intros Hk d; [reflexivity|]. simpl in *.
  rewrite IH by tauto. apply put_other. intro; subst; tauto.
Qed.
Lemma puts_last d h1 k v h2 :
  holds_map_or_nothing d -> ~ In k (map fst h2) -> d_get (puts d (h1 ++ (k, v) :: h2)) [k] = v.
Proof.
  intros Hd Hk. unfold puts. rewrite fold_left_app. simpl. fold (puts d h1).
  fold (puts (d_put (puts d h1) k v) h2). rewrite puts_other by exact Hk.
  apply put_same. now apply puts_map.
Qed.
(** Deep paths through another, present, top-level key are untouched as well. *)
Lemma put_deep l k v k1 x ks :
  In (k1, x) l -> k1 <> k -> d_get (d_put (DMap l) k v) (k1 :: ks) = d_get (DMap l) (k1 :: ks).
Proof.
  intros Hin Hk. simpl d_put. rewrite !get_is_loop. simpl. rewrite assoc_set_other by exact Hk.
  destruct (assoc k1 l) as [w|] eqn:E; [reflexivity|].
  apply assoc_None in E. exfalso. apply E. apply in_map_iff. now exists (k1, x).
Qed.

(** ** Typed getters with defaults *)
Lemma has_iff d k : d_has d [k] = true <-> d_get d [k] <> VNil.
Proof. unfold d_has. destruct (d_get d [k]); split; intro H; congruence. Qed.
Lemma config_default d k : d_get d [k] = VNil ->
  (forall s, config_string d k s = s) /\ (forall b, config_bool d k b = b) /\ (forall z, config_int d k z = z).
Proof.
  intro H. assert (E : d_has d [k] = false) by (unfold d_has; now rewrite H).
  unfold config_string, config_bool, config_int. rewrite E. auto.
Qed.
Lemma config_set d h1 k v h2 :
  holds_map_or_nothing d -> ~ In k (map fst h2) ->
  let d' := puts d (h1 ++ (k, v) :: h2) in
  (forall s dflt, v = VStr s -> config_string d' k dflt = s)
  /\ (forall b dflt, v = VBool b -> config_bool d' k dflt = b)
  /\ (forall s dflt, v = VStr s -> (config_bool d' k dflt = false <-> s = "false"))
  /\ (forall z dflt, v = VInt z -> config_int d' k dflt = z).
Proof.
  intros Hd Hk d'. pose proof (puts_last d h1 k v h2 Hd Hk) as Hg. fold d' in Hg.
  unfold config_string, config_bool, config_int, d_has, d_string, d_bool, d_int.
  rewrite Hg. split; [intros s dflt ->; reflexivity|]. split; [intros b dflt ->; reflexivity|].
  split; [|intros z dflt ->; reflexivity].
  intros s dflt ->. simpl. rewrite negb_false_iff. apply seqb_eq.
Qed.
