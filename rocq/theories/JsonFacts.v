(** Proofs about JsonAst.v. *)
From Verif Require Import GoStr Outcome Value Schema Time Model JsonAst SpecModel SpecJson ModelFacts.

(** ** Keys *)
Fixpoint nodup_b (l : list string) : bool :=
  match l with [] => true | x :: r => negb (str_mem x r) && nodup_b r end.
Lemma at_entries {B} k (f : json -> B) d bl : nodup_b (map fst bl) = true ->
  at_key k f d (entries bl) = match assoc k bl with Some (Some j) => f j | _ => d end.
Proof.
  induction bl as [|[k' [j|]] bl IH]; intros N; [reflexivity| |]; cbn [map fst nodup_b] in N; apply andb_true_iff in N as [N1 N2].
  - cbn [entries at_key assoc]. destruct (k =?s k'); [reflexivity|apply IH, N2].
  - cbn [entries assoc]. destruct (String.eqb_spec k k') as [->|NE]; [|apply IH, N2].
    rewrite (IH N2). assert (A : assoc k' bl = None); [|now rewrite A].
    clear - N1. induction bl as [|[k o] bl IH]; [reflexivity|]. cbn [map fst str_mem] in N1. cbn [assoc].
    destruct (k' =?s k); [discriminate|]. apply IH, N1.
Qed.
Definition ofinite (o : option json) : bool := match o with Some j => finite j | None => true end.
Lemma finite_entries bl : finite (JObj (entries bl)) = forallb (fun kv => ofinite (snd kv)) bl.
Proof. induction bl as [|[k [j|]] bl IH]; [reflexivity| |]; cbn in *; [now rewrite IH|exact IH]. Qed.

Lemma Forall2_map_l {A B C} (g : A -> B) (P : B -> C -> Prop) l l' : Forall2 P (map g l) l' <-> Forall2 (fun a c => P (g a) c) l l'.
Proof.
  split.
  - revert l'. induction l as [|a l IH]; intros l' H; inversion H; subst; constructor; auto.
  - induction 1; constructor; auto.
Qed.
Lemma each_iff {A} (f : json -> result unit A) l l' :
  each f l = Ok l' /\ forallb finite l = true <-> Forall2 (fun j x => f j = Ok x /\ finite j = true) l l'.
Proof.
  revert l'. induction l as [|j l IH]; intros l'.
  - split; [intros [H _]; injection H as <-; constructor|intros H; inversion H; split; reflexivity].
  - cbn [each forallb]. split.
    + intros [H F]. apply rbind_Ok in H as (x & H1 & H). apply rbind_Ok in H as (xs & H2 & H). injection H as <-.
      apply andb_true_iff in F as [F1 F2]. constructor; [auto|]. apply IH. auto.
    + intros H. inversion H as [|? ? ? ? [H1 F1] H2]; subst. apply IH in H2 as [H2 F2]. rewrite H1. cbn [rbind].
      fold (each f). rewrite H2, F1, F2. auto.
Qed.
Lemma Forall2_iff {A B} (P Q : A -> B -> Prop) l l' : (forall a b, In a l -> (P a b <-> Q a b)) -> Forall2 P l l' <-> Forall2 Q l l'.
Proof.
  revert l'. induction l as [|a l IH]; intros l' H; [split; intros F; inversion F; constructor|].
  split; intros F; inversion F; subst; constructor; try (apply H; [left; reflexivity|assumption]); apply IH; auto; intros; apply H; right; auto.
Qed.

(** an optional part of an object, read and written *)
Definition part {A} (f : json -> result unit A) (d : A) (o : option json) (y : A) : Prop :=
  match o with Some j => f j | None => Ok d end = Ok y /\ ofinite o = true.
Lemma part_list {A B} (w : A -> json) (f : json -> result unit B) (R : A -> B -> Prop) l l' :
  (forall a b, In a l -> (f (w a) = Ok b /\ finite (w a) = true <-> R a b)) ->
  part (r_list f) [] (w_list w l) l' <-> Forall2 R l l'.
Proof.
  intros H. unfold part, w_list. destruct l as [|a l].
  - split; [intros [E _]; injection E as <-; constructor|intros F; inversion F; split; reflexivity].
  - cbn [r_list ofinite finite]. rewrite each_iff, Forall2_map_l. apply Forall2_iff. exact H.
Qed.
Lemma part_str s y : part r_str "" (w_str s) y <-> y = s.
Proof.
  unfold part, w_str. destruct (String.eqb_spec s ""); cbn; split; try (intros [E _]; injection E; congruence); intros ->; subst; auto.
Qed.
Lemma each_strs l : each r_str (map JStr l) = Ok l.
Proof. induction l as [|s l IH]; [reflexivity|]. cbn [map each r_str rbind]. fold (each r_str). rewrite IH. reflexivity. Qed.
Lemma finite_strs l : forallb finite (map JStr l) = true.
Proof. now induction l. Qed.
Lemma part_strs l l' : part (r_list r_str) [] (w_list JStr l) l' <-> l' = l.
Proof.
  rewrite (part_list JStr r_str eq).
  - split; [induction 1; congruence|intros ->; induction l; constructor; auto].
  - intros a b _. cbn. split; [intros [E _]; congruence|intros ->; auto].
Qed.
Lemma part_annos l l' : part r_annos [] (w_annos l) l' <-> l' = l.
Proof.
  assert (E : r_annos (JObj (map (fun kv => (fst kv, JStr (snd kv))) l)) = Ok l).
  { cbn. induction l as [|[k v] l IH]; [reflexivity|]. cbn [map fst snd r_pairs r_str rbind]. now rewrite IH. }
  assert (F : finite (JObj (map (fun kv => (fst kv, JStr (snd kv))) l)) = true).
  { cbn. clear E. induction l as [|[k v] l IH]; [reflexivity|exact IH]. }
  unfold part, w_annos. destruct l as [|kv l]; [split; [intros [G _]; now injection G|intros ->; auto]|].
  rewrite E. cbn [ofinite]. rewrite F. split; [intros [G _]; congruence|intros ->; auto].
Qed.
Lemma part_values o y :
  part r_values None (match o with Some (v :: l) => Some (JArr (map JStr (v :: l))) | _ => None end) y <-> values_back o y.
Proof.
  unfold part, values_back. destruct o as [[|v l]|].
  - split; [intros [G _]; injection G as <-; auto|intros [[_ ->] | [N _]]; [auto|congruence]].
  - cbn [r_values ofinite]. rewrite each_strs. cbn [rbind finite]. rewrite finite_strs.
    split; [intros [G _]; injection G as <-; right; split; [congruence|reflexivity]|intros [[E _] | [_ ->]]; [discriminate|auto]].
  - split; [intros [G _]; injection G as <-; right; split; [discriminate|reflexivity]|intros [[E _] | [_ ->]]; [discriminate|auto]].
Qed.
Lemma whole_Z z : whole (dec_of_Z z) = Some z.
Proof. cbn. f_equal. lia. Qed.
Lemma part_int o y : size_fits o -> part (r_int 64) None (w_int o) y <-> y = o.
Proof.
  intros S. unfold part, w_int. destruct o as [z|]; cbn [option_map ofinite].
  - cbn [r_int]. rewrite whole_Z. specialize (S z eq_refl).
    assert (L : ((- 2 ^ (64 - 1) <=? z) && (z <? 2 ^ (64 - 1)))%Z = true) by (apply andb_true_iff; split; [apply Z.leb_le|apply Z.ltb_lt]; lia).
    rewrite L. cbn. split; [intros [E _]; congruence|intros ->; auto].
  - split; [intros [E _]; congruence|intros ->; auto].
Qed.
Lemma read_status z y : status_fits z -> r_status (JNum (dec_of_Z z)) = Ok y <-> y = z.
Proof.
  intros S. unfold r_status. cbn [r_int]. rewrite whole_Z. unfold status_fits in S.
  assert (L : ((- 2 ^ (32 - 1) <=? z) && (z <? 2 ^ (32 - 1)))%Z = true) by (apply andb_true_iff; split; [apply Z.leb_le|apply Z.ltb_lt]; lia).
  rewrite L. cbn [rbind]. split; [intros E; congruence|intros ->; auto].
Qed.
Lemma part_flag (b y : bool) : part r_bool false (if b then Some (JBool true) else None) y <-> y = b.
Proof. unfold part. destruct b; cbn; split; try (intros [E _]; congruence); intros ->; auto. Qed.

Section Facts.
Context (f64 : decimal -> option decimal) (num : decimal -> decimal).
Notation vback := (value_back f64 ts_string).
Notation sback := (spec_back f64 num ts_string).

Lemma part_dec o y : part (r_dec num) None (w_dec o) y <-> limit_back num o y.
Proof.
  unfold part, w_dec, limit_back, number. destruct o as [d|]; cbn [option_map].
  - split.
    + intros [E F]. injection E as <-. right. exists d. split; [reflexivity|]. split; [|reflexivity].
      destruct d as [m e|b]; [eauto|discriminate F].
    + intros [[E _] | (d' & E & (m & e & ->) & ->)]; [discriminate|]. injection E as ->. cbn. auto.
  - split; [intros [E _]; injection E as <-; auto|intros [[_ ->] | (d & E & _)]; [auto|discriminate]].
Qed.

(** ** Values *)
Lemma value_iff v : forall w, r_value f64 (w_value v) = Ok w /\ finite (w_value v) = true <-> vback v w.
Proof.
  assert (NUM : forall d w, (match f64 d with Some x => Ok (VFloat64 x) | None => Err tt end = @Ok unit value w /\ finite (JNum d) = true)
    <-> number d /\ exists x, f64 d = Some x /\ w = VFloat64 x).
  { intros d w. unfold number. split.
    - intros [E F]. split; [destruct d as [m e|b]; [eauto|discriminate F]|]. destruct (f64 d) as [x|]; [|discriminate].
      injection E as <-. eauto.
    - intros ((m & e & ->) & x & -> & ->). auto. }
  assert (INT : forall z, number (dec_of_Z z)) by (intros z; unfold number, dec_of_Z; eauto).
  induction v using value_ind'; intros w; cbn [w_value r_value];
    try (split; [intros [E F]; injection E as <-; constructor|intros B; inversion B; subst; cbn; auto]; fail).
  - rewrite NUM. split; [intros (N & x & E & ->); now constructor|intros B; inversion B; subst; eauto].
  - rewrite NUM. split; [intros (N & x & E & ->); now constructor|intros B; inversion B; subst; eauto].
  - rewrite NUM. split; [intros (N & x & E & ->); now constructor|intros B; inversion B; subst; split; [apply INT|eauto]].
  - rewrite NUM. split; [intros (N & x & E & ->); now constructor|intros B; inversion B; subst; split; [apply INT|eauto]].
  - rewrite NUM. split; [intros (N & x & E & ->); now constructor|intros B; inversion B; subst; eauto].
  - (* arrays *)
    assert (IH : forall l', each (r_value f64) (map w_value l) = Ok l' /\ forallb finite (map w_value l) = true <-> Forall2 vback l l').
    { intros l'. rewrite each_iff, Forall2_map_l. apply Forall2_iff. intros a b I. rewrite Forall_forall in H. apply H, I. }
    cbn [finite]. split.
    + intros [E F]. apply rbind_Ok in E as (l' & E & G). injection G as <-. constructor. apply IH. auto.
    + intros B. inversion B; subst. match goal with F : Forall2 _ _ _ |- _ => apply IH in F as [-> ->] end. auto.
  - (* objects *)
    set (go := fix go (l : list (string * json)) : result unit (list (string * value)) :=
              match l with
              | [] => Ok []
              | (k, j) :: r => v <- r_value f64 j ;; rest <- go r ;; Ok ((k, v) :: rest)
              end).
    assert (IH : forall l', go (map (fun kv => match kv with (k, x) => (k, w_value x) end) l) = Ok l'
              /\ finite (JObj (map (fun kv => match kv with (k, x) => (k, w_value x) end) l)) = true
              <-> Forall2 (fun a b => fst a = fst b /\ vback (snd a) (snd b)) l l').
    { cbn [finite]. induction H as [|[k x] l Hx Hl IH]; intros l'.
      - split; [intros [E _]; injection E as <-; constructor|intros F; inversion F; split; reflexivity].
      - cbn [map go forallb]. split.
        + intros [E F]. apply rbind_Ok in E as (y & E1 & E). apply rbind_Ok in E as (ys & E2 & E). injection E as <-.
          apply andb_true_iff in F as [F1 F2]. constructor; [split; [reflexivity|apply Hx; auto]|apply IH; auto].
        + intros F. inversion F as [|? [k' y] ? ys [E1 B1] B2]; subst. cbn in E1. subst k'. apply Hx in B1 as [B1 F1].
          apply IH in B2 as [B2 F2]. cbn [snd] in *. rewrite B1. cbn [rbind]. rewrite B2, F1, F2. auto. }
    split.
    + intros [E F]. apply rbind_Ok in E as (l' & E & G). injection G as <-. constructor. apply IH. auto.
    + intros B. inversion B; subst. match goal with F : Forall2 _ _ _ |- _ => apply IH in F as [E1 E2] end. rewrite E1. auto.
Qed.
Lemma part_any v y : part (r_value f64) VNil (w_any v) y <-> vback v y.
Proof.
  unfold part. destruct v; cbn [w_any ofinite]; try apply (value_iff _ y).
  split; [intros [E _]; injection E as <-; constructor|intros B; inversion B; auto].
Qed.

(** ** Types *)
Lemma w_spec_eq ts : w_spec ts =
  [("type", Some (JStr (ts_type ts))); ("pattern", w_str (ts_pattern ts));
   ("values", match ts_values ts with Some (v :: l) => Some (JArr (map JStr (v :: l))) | _ => None end);
   ("minSize", w_int (ts_minsize ts)); ("maxSize", w_int (ts_maxsize ts));
   ("fields", w_list (fun f => JObj (entries (w_field f))) (ts_fields ts));
   ("elements", w_list w_element (ts_elements ts)); ("min", w_dec (ts_min ts)); ("max", w_dec (ts_max ts));
   ("items", w_str (ts_items ts)); ("keys", w_str (ts_keys ts));
   ("variants", w_list (fun v => JObj (entries ([("name", Some (JStr (uv_name v))); ("comment", w_str (uv_comment v)); ("annotations", w_annos (uv_annos v))] ++ w_spec (uv_spec v)))) (ts_variants ts));
   ("unit", w_str (ts_unit ts)); ("value", w_str (ts_value ts)); ("reference", w_str (ts_reference ts))].
Proof.
  destruct ts as [t p vs mns mxs fs els mn mx it k vars u w r]. cbn [w_spec ts_type ts_pattern ts_values ts_minsize ts_maxsize ts_fields ts_elements ts_min ts_max ts_items ts_keys ts_variants ts_unit ts_value ts_reference].
  assert (E : forall {A} (f g : A -> json) l, (forall a, f a = g a) -> w_list f l = w_list g l).
  { intros A f g l H. destruct l; [reflexivity|]. cbn [w_list]. do 2 f_equal. apply map_ext, H. }
  rewrite (E _ _ (fun f => JObj (entries (w_field f)))) by (intros [n c a rq d s]; reflexivity).
  rewrite (E _ _ (fun v => JObj (entries ([("name", Some (JStr (uv_name v))); ("comment", w_str (uv_comment v)); ("annotations", w_annos (uv_annos v))] ++ w_spec (uv_spec v))))) by (intros [n c a s]; reflexivity).
  reflexivity.
Qed.
Definition r_variant (x : json) : result unit variantdef :=
  s <- r_spec f64 num x ;;
  r_obj (fun l' => n <- str_at "name" l' ;; c <- str_at "comment" l' ;; a <- annos_at l' ;; Ok (mkVariant n c a s)) x.
Lemma r_spec_eq l : r_spec f64 num (JObj l) =
  (t <- str_at "type" l ;; p <- str_at "pattern" l ;;
   vs <- at_key "values" r_values (Ok None) l ;;
   mns <- at_key "minSize" (r_int 64) (Ok None) l ;; mxs <- at_key "maxSize" (r_int 64) (Ok None) l ;;
   fs <- at_key "fields" (r_list (r_field f64 num)) (Ok []) l ;;
   els <- at_key "elements" (r_list r_element) (Ok []) l ;;
   mn <- at_key "min" (r_dec num) (Ok None) l ;; mx <- at_key "max" (r_dec num) (Ok None) l ;;
   it <- str_at "items" l ;; k <- str_at "keys" l ;;
   vars <- at_key "variants" (r_list r_variant) (Ok []) l ;;
   u <- str_at "unit" l ;; w <- str_at "value" l ;; r <- str_at "reference" l ;;
   Ok (mkTS t p vs mns mxs fs els mn mx it k vars u w r)).
Proof. reflexivity. Qed.

Definition spec_keys : list string :=
  ["type"; "pattern"; "values"; "minSize"; "maxSize"; "fields"; "elements"; "min"; "max"; "items"; "keys"; "variants"; "unit"; "value"; "reference"].
Lemma keys_spec ts : map fst (w_spec ts) = spec_keys.
Proof. rewrite w_spec_eq. reflexivity. Qed.
Definition bfinite (bl : blocks) : bool := forallb (fun kv => ofinite (snd kv)) bl.
Lemma nodup_app_r a b : nodup_b (a ++ b) = true -> nodup_b b = true.
Proof. induction a as [|x a IH]; [auto|]. cbn. intros H. apply andb_true_iff in H as [_ H]. auto. Qed.
Lemma str_mem_app s a b : str_mem s (a ++ b) = str_mem s a || str_mem s b.
Proof. induction a as [|x a IH]; [reflexivity|]. cbn [app str_mem]. rewrite IH. destruct (s =?s x); reflexivity. Qed.
Lemma assoc_skip {A} k (a b : list (string * A)) : nodup_b (map fst a ++ map fst b) = true -> str_mem k (map fst b) = true -> assoc k (a ++ b) = assoc k b.
Proof.
  induction a as [|[k' x] a IH]; intros N M; [reflexivity|]. cbn [map fst app nodup_b assoc] in *. apply andb_true_iff in N as [N1 N2].
  destruct (String.eqb_spec k k') as [->|NE]; [|auto]. rewrite str_mem_app, M, orb_true_r in N1. discriminate.
Qed.
Lemma at_own {B} own ts k (f : json -> B) d : nodup_b (map fst own ++ spec_keys) = true -> str_mem k spec_keys = true ->
  at_key k f d (entries (own ++ w_spec ts)) = match assoc k (w_spec ts) with Some (Some j) => f j | _ => d end.
Proof.
  intros N M. rewrite <- (keys_spec ts) in N, M. rewrite at_entries by now rewrite map_app. now rewrite assoc_skip.
Qed.
Lemma element_iff e y : r_element (w_element e) = Ok y /\ finite (w_element e) = true <-> y = e.
Proof.
  unfold w_element. rewrite finite_entries. unfold r_element, r_obj, str_at, annos_at. rewrite !at_entries by reflexivity.
  cbn [assoc String.eqb Ascii.eqb Bool.eqb forallb snd]. rewrite !andb_true_iff. split.
  - intros [H (F1 & F2 & F3 & _)]. apply rbind_Ok in H as (s & H1 & H). apply rbind_Ok in H as (c & H2 & H). apply rbind_Ok in H as (a & H3 & H).
    injection H as <-. injection H1 as <-. destruct e. cbn in *. f_equal; [apply part_str; split; eassumption|apply part_annos; split; eassumption].
  - intros ->. destruct (proj2 (part_str (ee_comment e) _) eq_refl) as [E1 F1]. destruct (proj2 (part_annos (ee_annos e) _) eq_refl) as [E2 F2].
    split; [|auto]. apply rbind_Ok. eexists. split; [reflexivity|]. apply rbind_Ok. eexists. split; [exact E1|].
    apply rbind_Ok. eexists. split; [exact E2|]. destruct e. reflexivity.
Qed.

(** the parts of the object of a field apart from its type *)
Definition own_field (f : fielddef) : blocks :=
  [("name", Some (JStr (fd_name f))); ("comment", w_str (fd_comment f)); ("annotations", w_annos (fd_annos f));
   ("required", if fd_required f then Some (JBool true) else None); ("default", w_any (fd_default f))].
Definition own3 (n c : string) (a : annos) : blocks := [("name", Some (JStr n)); ("comment", w_str c); ("annotations", w_annos a)].
(** what the object says about the type does not depend on its other parts *)
Definition spec_ok (ts : typespec) : Prop := forall ts' own, nodup_b (map fst own ++ spec_keys) = true ->
  (r_spec f64 num (JObj (entries (own ++ w_spec ts))) = Ok ts' /\ bfinite (w_spec ts) = true <-> sback ts ts').
Lemma bfinite_app a b : bfinite (a ++ b) = bfinite a && bfinite b.
Proof. apply forallb_app. Qed.

(** reading own parts of an object with a type spec behind them *)
Lemma at_front {B} own ts k (f : json -> B) d : nodup_b (map fst own ++ spec_keys) = true -> str_mem k spec_keys = false ->
  at_key k f d (entries (own ++ w_spec ts)) = match assoc k own with Some (Some j) => f j | _ => d end.
Proof.
  intros N M. rewrite <- (keys_spec ts) in N, M. rewrite at_entries by now rewrite map_app. clear N.
  induction own as [|[k' o] own IH]; cbn [app assoc].
  - assert (A : assoc k (w_spec ts) = None); [|now rewrite A]. revert M. generalize (w_spec ts). intros b M.
    induction b as [|[k' o] b IH]; [reflexivity|]. cbn [map fst str_mem assoc] in *. destruct (k =?s k'); [discriminate|auto].
  - destruct (k =?s k'); [reflexivity|exact IH].
Qed.
Ltac open_read H := repeat (let x := fresh "x" in let E := fresh "E" in apply rbind_Ok in H as (x & E & H)).
Ltac step_read := apply rbind_Ok; eexists; split; [first [eassumption | reflexivity] |].

Lemma field_iff f g : spec_ok (fd_spec f) ->
  r_field f64 num (JObj (entries (w_field f))) = Ok g /\ finite (JObj (entries (w_field f))) = true
  <-> field_back f64 num ts_string f g.
Proof.
  intros S. change (w_field f) with (own_field f ++ w_spec (fd_spec f)).
  assert (N : nodup_b (map fst (own_field f) ++ spec_keys) = true) by reflexivity.
  rewrite finite_entries. fold (bfinite (own_field f ++ w_spec (fd_spec f))). rewrite bfinite_app.
  unfold r_field, r_obj, str_at, annos_at. rewrite !(at_front _ _ _ _ _ N) by reflexivity.
  unfold field_back. rewrite <- (S (fd_spec g) _ N), <- part_any.
  set (sp := entries _). cbn [assoc own_field String.eqb Ascii.eqb Bool.eqb bfinite forallb snd]. rewrite !andb_true_iff. split.
  - intros [H ((F1 & F2 & F3 & F4 & F5 & _) & F)]. open_read H. injection H as <-. cbn. injection E0 as <-.
    split; [reflexivity|]. split; [apply part_str; split; eassumption|]. split; [apply part_annos; split; eassumption|].
    split; [apply part_flag; split; eassumption|]. split; [split; eassumption|]. split; eassumption.
  - intros (NM & C & A & R & [D FD] & [SP FS]).
    apply part_str in C as [C FC]. apply part_annos in A as [A FA]. apply part_flag in R as [R FR].
    split; [|repeat split; assumption]. do 6 step_read. destruct g. cbn in *. congruence.
Qed.
Lemma own3_iff {A} (mk : string -> string -> annos -> typespec -> A) n c a s y : spec_ok s ->
  (sp <- r_spec f64 num (JObj (entries (own3 n c a ++ w_spec s))) ;;
   r_obj (fun l => n <- str_at "name" l ;; c <- str_at "comment" l ;; a <- annos_at l ;; Ok (mk n c a sp)) (JObj (entries (own3 n c a ++ w_spec s)))) = Ok y
  /\ finite (JObj (entries (own3 n c a ++ w_spec s))) = true
  <-> exists s', y = mk n c a s' /\ sback s s'.
Proof.
  intros S. assert (N : nodup_b (map fst (own3 n c a) ++ spec_keys) = true) by reflexivity.
  rewrite finite_entries. fold (bfinite (own3 n c a ++ w_spec s)). rewrite bfinite_app.
  unfold r_obj, str_at, annos_at. rewrite !(at_front _ _ _ _ _ N) by reflexivity.
  set (sp := entries _) in *. cbn [assoc own3 String.eqb Ascii.eqb Bool.eqb bfinite forallb snd]. rewrite !andb_true_iff. split.
  - intros [H ((F1 & F2 & F3 & _) & F)]. open_read H. injection H as <-. injection E0 as <-.
    assert (x1 = c) by (apply part_str; split; eassumption). assert (x2 = a) by (apply part_annos; split; eassumption). subst.
    exists x. split; [reflexivity|]. apply (S x _ N). split; eassumption.
  - intros (s' & -> & B). apply (S s' _ N) in B as [SP FS].
    destruct (proj2 (part_str c _) eq_refl) as [C FC]. destruct (proj2 (part_annos a _) eq_refl) as [A1 FA].
    split; [|repeat split; assumption]. do 4 step_read. reflexivity.
Qed.
Lemma spec_all ts : spec_fits ts -> spec_ok ts.
Proof.
  induction ts as [ts IHf IHv] using typespec_ind'. intros FT. inversion FT as [? MNS MXS HF HV]; subst.
  rewrite Forall_forall in IHf, IHv. intros ts' own N.
  rewrite r_spec_eq. unfold str_at. rewrite !(at_own _ _ _ _ _ N) by reflexivity.
  rewrite (w_spec_eq ts). cbn [assoc String.eqb Ascii.eqb Bool.eqb bfinite forallb snd]. rewrite !andb_true_iff.
  assert (FS : forall l, part (r_list (r_field f64 num)) [] (w_list (fun f => JObj (entries (w_field f))) (ts_fields ts)) l
    <-> Forall2 (field_back f64 num ts_string) (ts_fields ts) l).
  { intros l. apply part_list. intros a b I. apply field_iff, IHf; auto. }
  assert (VS : forall l, part (r_list r_variant) [] (w_list (fun v => JObj (entries (own3 (uv_name v) (uv_comment v) (uv_annos v) ++ w_spec (uv_spec v)))) (ts_variants ts)) l
    <-> Forall2 (fun f g : variantdef => uv_name g = uv_name f /\ uv_comment g = uv_comment f /\ uv_annos g = uv_annos f /\ sback (uv_spec f) (uv_spec g)) (ts_variants ts) l).
  { intros l. apply part_list. intros a b I. unfold r_variant. rewrite (own3_iff mkVariant); [|apply IHv; auto]. split.
    - intros (s' & -> & B). cbn. auto.
    - intros (E1 & E2 & E3 & B). exists (uv_spec b). split; [destruct b; cbn in *; congruence|exact B]. }
  assert (ES : forall l, part (r_list r_element) [] (w_list w_element (ts_elements ts)) l <-> l = ts_elements ts).
  { intros l. rewrite (part_list w_element r_element (fun a b => b = a)) by (intros; apply element_iff).
    split; [induction 1; congruence|intros ->; induction (ts_elements ts); constructor; auto]. }
  split.
  - intros [H (F1 & F2 & F3 & F4 & F5 & F6 & F7 & F8 & F9 & F10 & F11 & F12 & F13 & F14 & F15 & _)]. open_read H. injection H as <-.
    injection E as <-.
    assert (x0 = ts_pattern ts) by (apply part_str; split; eassumption).
    assert (B1 : values_back (ts_values ts) x1) by (apply part_values; split; eassumption).
    assert (x2 = ts_minsize ts) by (apply part_int; [assumption|split; eassumption]).
    assert (x3 = ts_maxsize ts) by (apply part_int; [assumption|split; eassumption]).
    assert (B2 := proj1 (FS x4) (conj E4 F6)). assert (x5 = ts_elements ts) by (apply ES; split; eassumption).
    assert (B3 : limit_back num (ts_min ts) x6) by (apply part_dec; split; eassumption).
    assert (B4 : limit_back num (ts_max ts) x7) by (apply part_dec; split; eassumption).
    assert (x8 = ts_items ts) by (apply part_str; split; eassumption). assert (x9 = ts_keys ts) by (apply part_str; split; eassumption).
    assert (B5 := proj1 (VS x10) (conj E10 F12)).
    assert (x11 = ts_unit ts) by (apply part_str; split; eassumption). assert (x12 = ts_value ts) by (apply part_str; split; eassumption).
    assert (x13 = ts_reference ts) by (apply part_str; split; eassumption). subst.
    destruct ts as [t p vs mns mxs fs els mn mx it k vars u w r]; cbn in *. constructor; assumption.
  - intros B. inversion B as [t p vs vs' mns mxs fs fs' els mn mn' mx mx' it k vars vars' u w r B1 B2 B3 B4 B5]; subst ts ts'.
    cbn [ts_type ts_pattern ts_values ts_minsize ts_maxsize ts_fields ts_elements ts_min ts_max ts_items ts_keys ts_variants ts_unit ts_value ts_reference] in *.
    apply part_values in B1 as [G1 F1]. apply part_dec in B2 as [G2 F2]. apply part_dec in B3 as [G3 F3].
    apply FS in B4 as [G4 F4]. apply VS in B5 as [G5 F5].
    destruct (proj2 (ES _) eq_refl) as [G6 F6]. destruct (proj2 (part_int _ _ MNS) eq_refl) as [G7 F7].
    destruct (proj2 (part_int _ _ MXS) eq_refl) as [G8 F8].
    destruct (proj2 (part_str p _) eq_refl) as [G9 F9]. destruct (proj2 (part_str it _) eq_refl) as [G10 F10].
    destruct (proj2 (part_str k _) eq_refl) as [G11 F11]. destruct (proj2 (part_str u _) eq_refl) as [G12 F12].
    destruct (proj2 (part_str w _) eq_refl) as [G13 F13]. destruct (proj2 (part_str r _) eq_refl) as [G14 F14].
    split; [|repeat split; assumption].
    apply rbind_Ok; eexists; split; [reflexivity|].
    apply rbind_Ok; eexists; split; [exact G9|]. apply rbind_Ok; eexists; split; [exact G1|]. apply rbind_Ok; eexists; split; [exact G7|].
    apply rbind_Ok; eexists; split; [exact G8|]. apply rbind_Ok; eexists; split; [exact G4|]. apply rbind_Ok; eexists; split; [exact G6|].
    apply rbind_Ok; eexists; split; [exact G2|]. apply rbind_Ok; eexists; split; [exact G3|]. apply rbind_Ok; eexists; split; [exact G10|].
    apply rbind_Ok; eexists; split; [exact G11|]. apply rbind_Ok; eexists; split; [exact G5|]. apply rbind_Ok; eexists; split; [exact G12|].
    apply rbind_Ok; eexists; split; [exact G13|]. apply rbind_Ok; eexists; split; [exact G14|]. reflexivity.
Qed.

(** ** The other parts of a schema *)
Lemma td_iff td y : spec_fits (td_spec td) ->
  r_typedef f64 num (w_typedef td) = Ok y /\ finite (w_typedef td) = true <-> td_back f64 num ts_string td y.
Proof.
  intros F. unfold r_typedef, w_typedef. etransitivity; [apply (own3_iff mkTD); now apply spec_all|]. unfold td_back. split.
  - intros (s' & -> & B). cbn. auto.
  - intros (E1 & E2 & E3 & B). exists (td_spec y). split; [destruct y; cbn in *; congruence|exact B].
Qed.
Lemma output_iff o y : spec_fits (oo_spec o) ->
  r_output f64 num (w_output o) = Ok y /\ finite (w_output o) = true <-> output_back f64 num ts_string o y.
Proof.
  intros F. unfold r_output, w_output. etransitivity; [apply (own3_iff mkOut); now apply spec_all|]. unfold output_back. split.
  - intros (s' & -> & B). cbn. auto.
  - intros (E1 & E2 & E3 & B). exists (oo_spec y). split; [destruct y; cbn in *; congruence|exact B].
Qed.
Lemma example_iff e y : r_example f64 (w_example e) = Ok y /\ finite (w_example e) = true <-> example_back f64 ts_string e y.
Proof.
  unfold w_example. rewrite finite_entries. unfold r_example, r_obj, str_at, annos_at. rewrite !at_entries by reflexivity.
  unfold example_back. rewrite <- part_any.
  cbn [assoc String.eqb Ascii.eqb Bool.eqb forallb snd]. rewrite !andb_true_iff. split.
  - intros [H (F1 & F2 & F3 & F4 & F5 & _)]. open_read H. injection H as <-. injection E as <-. cbn.
    split; [reflexivity|]. split; [apply part_str; split; eassumption|]. split; [apply part_str; split; eassumption|].
    split; [apply part_annos; split; eassumption|split; eassumption].
  - intros (T & NM & C & A & [D FD]).
    apply part_str in NM as [NM FN]. apply part_str in C as [C FC]. apply part_annos in A as [A FA].
    split; [|repeat split; assumption]. do 5 step_read. destruct y. cbn in *. congruence.
Qed.
Lemma op_iff o y : (forall f : fielddef, In f (op_inputs o) -> spec_fits (fd_spec f)) -> (forall x, In x (op_outputs o) -> spec_fits (oo_spec x)) ->
  r_op f64 num (w_op o) = Ok y /\ finite (w_op o) = true <-> op_back f64 num ts_string o y.
Proof.
  intros FI FO. unfold w_op. rewrite finite_entries. unfold r_op, r_obj, str_at, annos_at. rewrite !at_entries by reflexivity.
  assert (FS : forall l, part (r_list (r_field f64 num)) [] (w_list (fun f => JObj (entries (w_field f))) (op_inputs o)) l
    <-> Forall2 (field_back f64 num ts_string) (op_inputs o) l).
  { intros l. apply part_list. intros a b I. apply field_iff, spec_all; auto. }
  assert (OS : forall l, part (r_list (r_output f64 num)) [] (w_list w_output (op_outputs o)) l
    <-> Forall2 (output_back f64 num ts_string) (op_outputs o) l).
  { intros l. apply part_list. intros a b I. apply output_iff; auto. }
  unfold op_back. rewrite <- FS, <- OS.
  cbn [assoc String.eqb Ascii.eqb Bool.eqb forallb snd]. rewrite !andb_true_iff. split.
  - intros [H (F1 & F2 & F3 & F4 & F5 & F6 & _)]. open_read H. injection H as <-. cbn.
    split; [apply part_str; split; eassumption|]. split; [apply part_str; split; eassumption|].
    split; [apply part_annos; split; eassumption|]. split; [apply part_strs; split; eassumption|]. split; split; eassumption.
  - intros (NM & C & A & X & [D FD] & [D2 FD2]).
    apply part_str in NM as [NM FN]. apply part_str in C as [C FC]. apply part_annos in A as [A FA]. apply part_strs in X as [X FX].
    split; [|repeat split; assumption]. do 6 step_read. destruct y. reflexivity.
Qed.
Lemma param_iff p y : spec_fits (fd_spec (ps_field p)) ->
  r_param f64 num (w_param p) = Ok y /\ finite (w_param p) = true <-> param_back f64 num ts_string p y.
Proof.
  intros FT. set (f := ps_field p) in *. set (own := [("header", w_str (ps_header p)); ("query", w_str (ps_query p));
     ("path", if ps_path p then Some (JBool true) else None)] ++ own_field f).
  assert (W : w_param p = JObj (entries (own ++ w_spec (fd_spec f)))) by reflexivity. rewrite W.
  assert (N : nodup_b (map fst own ++ spec_keys) = true) by reflexivity.
  rewrite finite_entries. fold (bfinite (own ++ w_spec (fd_spec f))). rewrite bfinite_app.
  unfold r_param, r_field, r_obj, str_at, annos_at. rewrite !(at_front _ _ _ _ _ N) by reflexivity.
  unfold param_back, field_back. fold f. rewrite <- (spec_all _ FT (fd_spec (ps_field y)) _ N), <- part_any.
  set (sp := entries _). cbn [own app assoc own_field String.eqb Ascii.eqb Bool.eqb bfinite forallb snd]. rewrite !andb_true_iff. split.
  - intros [H ((F1 & F2 & F3 & F4 & F5 & F6 & F7 & F8 & _) & F)]. apply rbind_Ok in H as (g & G & H). open_read G. injection G as <-.
    open_read H. injection H as <-. cbn. injection E0 as <-.
    split; [apply part_str; split; eassumption|]. split; [apply part_str; split; eassumption|]. split; [apply part_flag; split; eassumption|].
    split; [reflexivity|]. split; [apply part_str; split; eassumption|]. split; [apply part_annos; split; eassumption|].
    split; [apply part_flag; split; eassumption|]. split; [split; eassumption|]. split; eassumption.
  - intros (HD & QU & PA & NM & C & A & R & [D FD] & [SP FS]).
    apply part_str in HD as [HD FH]. apply part_str in QU as [QU FQ]. apply part_flag in PA as [PA FP].
    apply part_str in C as [C FC]. apply part_annos in A as [A FA]. apply part_flag in R as [R FR].
    split; [|repeat split; assumption].
    apply rbind_Ok. exists (ps_field y). split.
    + do 6 step_read. destruct (ps_field y). cbn in *. congruence.
    + do 3 step_read. destruct y. reflexivity.
Qed.
Lemma params_iff l l' : (forall p, In p l -> spec_fits (fd_spec (ps_field p))) ->
  part (r_list (r_param f64 num)) [] (w_list w_param l) l' <-> Forall2 (param_back f64 num ts_string) l l'.
Proof. intros F. apply part_list. intros a b I. apply param_iff; auto. Qed.
Lemma expected_iff e y : status_fits (xp_status e) -> (forall p, In p (xp_outputs e) -> spec_fits (fd_spec (ps_field p))) ->
  r_expected f64 num (w_expected e) = Ok y /\ finite (w_expected e) = true <-> expected_back f64 num ts_string e y.
Proof.
  intros ST FP. unfold w_expected. rewrite finite_entries. unfold r_expected, r_obj, str_at, annos_at. rewrite !at_entries by reflexivity.
  unfold expected_back. rewrite <- (params_iff _ _ FP).
  cbn [assoc String.eqb Ascii.eqb Bool.eqb forallb snd]. rewrite !andb_true_iff. split.
  - intros [H (F1 & F2 & F3 & F4 & _)]. open_read H. injection H as <-. cbn.
    split; [apply read_status; assumption|]. split; [apply part_str; split; eassumption|].
    split; [apply part_annos; split; eassumption|]. split; eassumption.
  - intros (S & C & A & [D FD]).
    apply (read_status _ _ ST) in S. apply part_str in C as [C FC]. apply part_annos in A as [A FA].
    split; [|repeat split; assumption]. do 4 step_read. destruct y. reflexivity.
Qed.
Lemma exception_iff e y : status_fits (xc_status e) ->
  r_exception (w_exception e) = Ok y /\ finite (w_exception e) = true <-> y = e.
Proof.
  intros ST. unfold w_exception. rewrite finite_entries. unfold r_exception, r_obj, str_at, annos_at. rewrite !at_entries by reflexivity.
  cbn [assoc String.eqb Ascii.eqb Bool.eqb forallb snd]. rewrite !andb_true_iff. split.
  - intros [H (F1 & F2 & F3 & F4 & _)]. open_read H. injection H as <-. injection E as <-. destruct e. cbn in *.
    f_equal; [apply read_status; assumption|apply part_str; split; eassumption|apply part_annos; split; eassumption].
  - intros ->. pose proof (proj2 (read_status _ _ ST) eq_refl) as S. destruct (proj2 (part_str (xc_comment e) _) eq_refl) as [C FC].
    destruct (proj2 (part_annos (xc_annos e) _) eq_refl) as [A FA].
    split; [|repeat split; assumption]. do 4 step_read. destruct e. reflexivity.
Qed.
Lemma w_expected_obj e : exists l, w_expected e = JObj l.
Proof. unfold w_expected. eauto. Qed.
Lemma http_iff h y : (forall p, In p (h_inputs h) -> spec_fits (fd_spec (ps_field p))) ->
  (forall e, h_expected h = Some e -> status_fits (xp_status e) /\ forall p, In p (xp_outputs e) -> spec_fits (fd_spec (ps_field p))) ->
  (forall x, In x (h_exceptions h) -> status_fits (xc_status x)) ->
  r_http f64 num (w_http h) = Ok y /\ finite (w_http h) = true <-> http_back f64 num ts_string h y.
Proof.
  intros FI FE FX. unfold w_http. rewrite finite_entries. unfold r_http, r_obj, str_at, annos_at. rewrite !at_entries by reflexivity.
  unfold http_back. rewrite <- (params_iff _ _ FI).
  assert (XS : forall l, part (r_list r_exception) [] (w_list w_exception (h_exceptions h)) l <-> l = h_exceptions h).
  { intros l. rewrite (part_list w_exception r_exception (fun a b => b = a)) by (intros; apply exception_iff; auto).
    clear. split; [induction 1; congruence|intros ->; induction (h_exceptions h); constructor; auto]. }
  assert (EE : forall o, part (r_option (r_expected f64 num)) None (option_map w_expected (h_expected h)) o
     <-> match h_expected h, o with None, None => True | Some e, Some e' => expected_back f64 num ts_string e e' | _, _ => False end).
  { intros o. destruct (h_expected h) as [e|] eqn:EH; cbn [option_map]; unfold part.
    - destruct (FE e eq_refl) as [F1 F2]. cbn [ofinite]. destruct (w_expected_obj e) as [l W].
      assert (RO : r_option (r_expected f64 num) (w_expected e) = (x <- r_expected f64 num (w_expected e) ;; Ok (Some x))) by now rewrite W.
      rewrite RO. destruct o as [e'|].
      + rewrite <- (expected_iff _ _ F1 F2). split; intros [H F]; split; auto.
        * apply rbind_Ok in H as (x & H & G). congruence.
        * now rewrite H.
      + split; [|tauto]. intros [H _]. apply rbind_Ok in H as (x & H & G). discriminate.
    - split; [intros [H _]; injection H as <-; exact Logic.I|]. destruct o; [tauto|auto]. }
  rewrite <- EE.
  cbn [assoc String.eqb Ascii.eqb Bool.eqb forallb snd]. rewrite !andb_true_iff. split.
  - intros [H (F1 & F2 & F3 & F4 & F5 & F6 & F7 & F8 & F9 & _)]. open_read H. injection H as <-. cbn. injection E3 as <-. injection E4 as <-.
    split; [apply part_str; split; eassumption|]. split; [apply part_str; split; eassumption|]. split; [apply part_str; split; eassumption|].
    split; [apply part_annos; split; eassumption|]. split; [reflexivity|]. split; [reflexivity|].
    split; [apply XS; split; eassumption|]. split; split; eassumption.
  - intros (NM & RZ & C & A & M & P & X & [D FD] & [D2 FD2]).
    apply part_str in NM as [NM FN]. apply part_str in RZ as [RZ FR]. apply part_str in C as [C FC]. apply part_annos in A as [A FA].
    apply XS in X as [X FX'].
    split; [|repeat split; assumption]. do 9 step_read. destruct y. cbn in *. congruence.
Qed.

(** ** Models *)
Lemma up_some {A} (l : list A) : up_to_nil (map Some l) = (l, false).
Proof. induction l as [|x l IH]; [reflexivity|]. cbn [map up_to_nil]. now rewrite IH. Qed.
Lemma part_option {A B} (w : A -> json) (f : json -> result unit B) (R : A -> B -> Prop) l l' :
  (forall a, exists o, w a = JObj o) ->
  (forall a b, In a l -> (f (w a) = Ok b /\ finite (w a) = true <-> R a b)) ->
  part (r_list (r_option f)) [] (w_list w l) l' <-> exists l0, l' = map Some l0 /\ Forall2 R l l0.
Proof.
  intros O H. rewrite (part_list w (r_option f) (fun a b => exists x, b = Some x /\ R a x)).
  - clear. split.
    + induction 1 as [|a b l l' (x & -> & R1) _ (l0 & -> & R2)]; [exists []; auto|]. exists (x :: l0). split; [reflexivity|constructor; auto].
    + intros (l0 & -> & F). induction F; constructor; eauto.
  - intros a b I. destruct (O a) as [o W]. assert (RO : r_option f (w a) = (x <- f (w a) ;; Ok (Some x))) by now rewrite W.
    rewrite RO. split.
    + intros [E F]. apply rbind_Ok in E as (x & E & G). injection G as <-. exists x. split; [reflexivity|]. apply H; auto.
    + intros (x & -> & R1). apply H in R1 as [R1 F]; [|exact I]. rewrite R1. auto.
Qed.
Lemma load_pretty m m' : schema_fits (m_schema m) ->
  (load_model f64 num (pretty m) = Ok m' <->
   sc_sadl (m_schema m) <> "" /\ exists sch', schema_back f64 num ts_string (m_schema m) sch' /\ new_model sch' = Ok m').
Proof.
  set (s := m_schema m). intros (FT & FO & FH). unfold pretty. fold s.
  assert (TS : forall l, part (r_list (r_option (r_typedef f64 num))) [] (w_list w_typedef (sc_types s)) l
    <-> exists l0, l = map Some l0 /\ Forall2 (td_back f64 num ts_string) (sc_types s) l0).
  { intros l. apply part_option; [intros a; unfold w_typedef; eauto|]. intros a b I. apply td_iff; auto. }
  assert (HS : forall l, part (r_list (r_option (r_http f64 num))) [] (w_list w_http (sc_http s)) l
    <-> exists l0, l = map Some l0 /\ Forall2 (http_back f64 num ts_string) (sc_http s) l0).
  { intros l. apply part_option; [intros a; unfold w_http; eauto|]. intros a b I. destruct (FH a I) as (H1 & H2 & H3). apply http_iff; auto. }
  assert (OS : forall l, part (r_list (r_op f64 num)) [] (w_list w_op (sc_operations s)) l
    <-> Forall2 (op_back f64 num ts_string) (sc_operations s) l).
  { intros l. apply part_list. intros a b I. destruct (FO a I). apply op_iff; auto. }
  assert (XS : forall l, part (r_list (r_example f64)) [] (w_list w_example (sc_examples s)) l
    <-> Forall2 (example_back f64 ts_string) (sc_examples s) l).
  { intros l. apply part_list. intros a b I. apply example_iff. }
  split.
  - intros H. destruct (finite (w_schema s)) eqn:FN; [|discriminate]. unfold w_schema in *. rewrite finite_entries in FN.
    cbn [load_model] in H. unfold str_at, annos_at in H. rewrite !at_entries in H by reflexivity.
    cbn [assoc String.eqb Ascii.eqb Bool.eqb forallb snd] in *. rewrite !andb_true_iff in FN.
    destruct FN as (F1 & F2 & F3 & F4 & F5 & F6 & F7 & F8 & F9 & F10 & F11 & _). open_read H. injection E as <-. injection E0 as <-.
    destruct (proj1 (TS _) (conj E4 F6)) as (tds & -> & BT). destruct (proj1 (HS _) (conj E7 F9)) as (hs & -> & BH).
    pose proof (proj1 (OS _) (conj E6 F8)) as BO. pose proof (proj1 (XS _) (conj E5 F7)) as BX.
    rewrite !up_some in H. destruct (String.eqb_spec (sc_sadl s) "") as [E|NE]; [discriminate|]. split; [exact NE|].
    cbn [orb] in H. destruct (new_model _) as [m1| | |] eqn:NM in H; try discriminate. injection H as ->.
    eexists. split; [|exact NM]. unfold schema_back. cbn.
    split; [reflexivity|]. split; [reflexivity|].
    split; [apply part_str; split; eassumption|]. split; [apply part_str; split; eassumption|]. split; [apply part_str; split; eassumption|].
    split; [apply part_str; split; eassumption|]. split; [apply part_annos; split; eassumption|]. auto.
  - intros (NE & sch' & (E1 & E2 & E3 & E4 & E5 & E6 & E7 & BT & BX & BO & BH) & NM).
    apply part_str in E3 as [G3 F3]. apply part_str in E4 as [G4 F4]. apply part_str in E5 as [G5 F5]. apply part_str in E6 as [G6 F6].
    apply part_annos in E7 as [G7 F7]. apply OS in BO as [GO FO']. apply XS in BX as [GX FX].
    destruct (proj2 (TS _) (ex_intro _ _ (conj eq_refl BT))) as [GT FT']. destruct (proj2 (HS _) (ex_intro _ _ (conj eq_refl BH))) as [GH FH'].
    assert (FN : finite (w_schema s) = true).
    { unfold w_schema. rewrite finite_entries. cbn [forallb snd]. rewrite F3, F4, F5, F6, F7, FO', FX, FT', FH'. reflexivity. }
    rewrite FN. unfold w_schema. cbn [load_model]. unfold str_at, annos_at. rewrite !at_entries by reflexivity.
    cbn [assoc String.eqb Ascii.eqb Bool.eqb].
    apply rbind_Ok; eexists; split; [reflexivity|]. apply rbind_Ok; eexists; split; [reflexivity|]. apply rbind_Ok; eexists; split; [exact G3|].
    apply rbind_Ok; eexists; split; [exact G4|]. apply rbind_Ok; eexists; split; [exact G5|]. apply rbind_Ok; eexists; split; [exact GT|].
    apply rbind_Ok; eexists; split; [exact GX|]. apply rbind_Ok; eexists; split; [exact GO|]. apply rbind_Ok; eexists; split; [exact GH|].
    apply rbind_Ok; eexists; split; [exact G6|]. apply rbind_Ok; eexists; split; [exact G7|].
    destruct (String.eqb_spec (sc_sadl s) "") as [E|_]; [congruence|]. rewrite !up_some. cbn [orb].
    rewrite <- E1, <- E2. replace (mkSchema _ _ _ _ _ _ _ _ _ _ _) with sch' by (destruct sch'; reflexivity). now rewrite NM.
Qed.
Global Opaque r_spec w_spec.
End Facts.
