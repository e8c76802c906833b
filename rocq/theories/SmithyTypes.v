(** Types written as Smithy shapes and read again. *)
From Verif Require Import GoStr Outcome Value Schema Misc MiscFacts Model SpecModel ModelFacts SpecPV PVFacts SpecMisc SpecGen OpenApi SpecOpenApi
  OpenApiFacts SpecImport Smithy SmithyFacts SmithyAst SpecSmithy SmithyWrite SmithyShapes SmithyFinal.

(** ** Comments *)
Lemma ltrim_split s : exists a, s = a +++ ltrim_sp s /\ only_blanks a.
Proof.
  induction s as [|c s (a & E & H)]; simpl; [exists ""; split; [reflexivity|]; intros c (x & y & X); destruct x; discriminate|].
  destruct (Ascii.eqb c " ") eqn:B.
  - apply Ascii.eqb_eq in B. subst c. exists (String " " a). split; [simpl; rewrite <- E; reflexivity|].
    intros d (x & y & X). destruct x as [|z x]; simpl in X; injection X as X1 X2; [congruence|]. apply H. exists x, y. exact X2.
  - exists "". split; [reflexivity|]. intros d (x & y & X); destruct x; discriminate.
Qed.
Lemma ltrim_head s r : ltrim_sp s <> " " +++ r.
Proof.
  induction s as [|c s IH]; simpl; [discriminate|]. destruct (Ascii.eqb c " ") eqn:B; [exact IH|]. intros X. simpl in X. injection X as X _. subst c. discriminate.
Qed.
Lemma rtrim_split s : exists b, s = rtrim_sp s +++ b /\ only_blanks b.
Proof.
  induction s as [|c s (b & E & H)]; simpl; [exists ""; split; [reflexivity|]; intros c (x & y & X); destruct x; discriminate|].
  destruct (rtrim_sp s) as [|d r] eqn:R.
  - simpl in E. subst b. destruct (Ascii.eqb c " ") eqn:B.
    + apply Ascii.eqb_eq in B. subst c. exists (String " " s). split; [reflexivity|]. intros d (x & y & X).
      destruct x as [|z x]; simpl in X; injection X as X1 X2; [congruence|]. apply H. exists x, y. exact X2.
    + exists s. split; [reflexivity|exact H].
  - exists b. split; [simpl in *; rewrite <- E; reflexivity|exact H].
Qed.
Lemma rtrim_tail s r : rtrim_sp s <> r +++ " ".
Proof.
  revert r. induction s as [|c s IH]; simpl; intros r; [destruct r; discriminate|]. destruct (rtrim_sp s) as [|d t] eqn:R.
  - destruct (Ascii.eqb c " ") eqn:B; [destruct r; discriminate|]. destruct r as [|e r]; intros X; simpl in X; [injection X as X1; subst c; discriminate|injection X as X1 X2; destruct r; discriminate].
  - destruct r as [|e r]; intros X; simpl in X; [discriminate|]. injection X as X1 X2. exact (IH r X2).
Qed.
Lemma rtrim_head s : (forall r, s <> " " +++ r) -> forall r, rtrim_sp s <> " " +++ r.
Proof.
  intros H r E. destruct (rtrim_split s) as (b & X & _). rewrite E in X. apply (H (r +++ b)). rewrite X. simpl. reflexivity.
Qed.
Lemma trim_blanks s : blanks_off s (trim_sp s).
Proof.
  unfold trim_sp. destruct (ltrim_split s) as (a & E & Ha). destruct (rtrim_split (ltrim_sp s)) as (b & F & Hb). split; [|split].
  - exists a, b. split; [rewrite <- F; exact E|auto].
  - apply rtrim_head. apply ltrim_head.
  - apply rtrim_tail.
Qed.
Lemma escape_back s : comment_back s (escape_comment s).
Proof.
  unfold escape_comment. destruct (split "010" s) as [|x [|y l]] eqn:E; [elim (split_nonempty _ _ E)| |].
  - apply cb_line. apply no_char_smem. rewrite <- (join_split "010" s), E. apply (split_no_sep "010" s x). rewrite E. left. reflexivity.
  - rewrite <- (join_split "010" s) at 1. rewrite E. apply cb_lines.
    + simpl. lia.
    + intros z I. apply no_char_smem. apply (split_no_sep "010" s z). rewrite E. exact I.
    + generalize (x :: y :: l). intros m. induction m as [|z m IH]; constructor; [apply trim_blanks|exact IH].
Qed.
Lemma doc_back c t : get "smithy.api#documentation" t = (if c =?s "" then None else Some (TStr c)) -> comment_back c (doc_of t).
Proof.
  intros H. unfold doc_of, t_text. rewrite H. destruct (c =?s "") eqn:E; [|apply escape_back]. apply seqb_eq in E. subst c. apply cb_line. apply no_char_smem. reflexivity.
Qed.

(** ** Annotations *)
Section Read.
Context (L : slib).
Definition raw_annos (kv : string * tval) : annos :=
  let '(k, v) := kv in
  if k =?s "smithy.api#error" then [("x_error", as_text (Some v))]
  else if k =?s "smithy.api#httpError" then [("x_httpError", match v with TInt z => sl_text L z | TStr s => s | _ => "" end)]
  else if k =?s "smithy.api#tags" then [("x_tags", join "," (string_array v))]
  else if k =?s "smithy.api#enumValue" then [("x_enumValue", as_text (Some v))]
  else if k =?s "smithy.api#deprecated" then
    [("x_deprecated", "true"); ("x_deprecated_message", t_text "message" (as_obj v)); ("x_deprecated_since", t_text "since" (as_obj v))]
  else if k =?s "smithy.api#paginated" then
    [("x_paginated", "inputToken=" +++ t_text "inputToken" (as_obj v) +++ ",outputToken=" +++ t_text "outputToken" (as_obj v)
           +++ ",pageSize=" +++ t_text "pageSize" (as_obj v) +++ ",items=" +++ t_text "items" (as_obj v))]
  else [].
Definition anno_of (kv : string * tval) : annos := filter (fun p => negb (snd p =?s "")) (raw_annos kv).
Definition known_traits : list string :=
  ["smithy.api#error"; "smithy.api#httpError"; "smithy.api#httpPayload"; "smithy.api#required"; "smithy.api#documentation"; "smithy.api#range";
   "smithy.api#tags"; "smithy.api#readonly"; "smithy.api#idempotent"; "smithy.api#sensitive"; "smithy.api#http"; "smithy.api#enumValue";
   "smithy.api#deprecated"; "smithy.api#paginated"; "smithy.api#examples"].
Definition putp (a : annos) (p : string * string) : annos := put (fst p) (snd p) a.
Lemma trait_anno_known shapes a k v : In k known_traits -> trait_anno L shapes a (k, v) = Ok (fold_left putp (anno_of (k, v)) a).
Proof.
  intros I. unfold known_traits in I. simpl in I. unfold anno_of, putp.
  repeat (destruct I as [<-|I]; [unfold trait_anno, raw_annos, with_anno; cbn [String.eqb Ascii.eqb Bool.eqb str_mem existsb orb filter fold_left snd negb];
    repeat match goal with |- context [if ?b then _ else _] => destruct b eqn:?; simpl end; reflexivity|]). destruct I.
Qed.
Lemma traits_annos_known shapes t : (forall k v, In (k, v) t -> In k known_traits) -> forall a, traits_annos L shapes a t = Ok (fold_left putp (flat_map anno_of t) a).
Proof.
  induction t as [|[k v] t IH]; cbn [traits_annos flat_map]; intros H a; [reflexivity|]. rewrite trait_anno_known by (apply (H k v); left; reflexivity).
  cbn [rbind]. rewrite IH by (intros x y I; apply (H x y); right; exact I). rewrite fold_left_app. reflexivity.
Qed.
Definition owner (k : string) : string :=
  if k =?s "x_error" then "smithy.api#error" else if k =?s "x_httpError" then "smithy.api#httpError" else if k =?s "x_tags" then "smithy.api#tags"
  else if k =?s "x_enumValue" then "smithy.api#enumValue" else if k =?s "x_paginated" then "smithy.api#paginated" else "smithy.api#deprecated".
Lemma filter_In_sub {A} (f : A -> bool) l x : In x (filter f l) -> In x l.
Proof. intros H. apply filter_In in H. apply H. Qed.
Lemma anno_owner tk tv k v : In (k, v) (anno_of (tk, tv)) -> owner k = tk.
Proof.
  intros I. apply filter_In_sub in I. unfold raw_annos in I.
  repeat match type of I with context [if ?b then _ else _] => destruct b eqn:?E; [apply seqb_eq in E; subst tk; simpl in I;
    repeat (destruct I as [I|I]; [injection I as <- _; reflexivity|]); destruct I|clear E] end. destruct I.
Qed.
Lemma filter_nodup {A} (f : A -> bool) (g : A -> string) l : NoDup (map g l) -> NoDup (map g (filter f l)).
Proof.
  induction l as [|x l IH]; simpl; intros H; [constructor|]. inversion H as [|? ? N D]; subst. destruct (f x); simpl; [|auto].
  constructor; [|auto]. intros I. apply N. apply in_map_iff in I. destruct I as (y & E & I). rewrite <- E. apply in_map. apply (filter_In_sub _ _ _ I).
Qed.
Lemma anno_of_nodup kv : NoDup (map fst (anno_of kv)).
Proof.
  unfold anno_of. apply filter_nodup. destruct kv as [k v]. unfold raw_annos.
  repeat match goal with |- context [if ?b then _ else _] => destruct b end; simpl; repeat constructor; simpl; intuition discriminate.
Qed.
Lemma annos_nodup t : NoDup (map fst t) -> NoDup (map fst (flat_map anno_of t)).
Proof.
  induction t as [|[k v] t IH]; simpl; intros H; [constructor|]. inversion H as [|? ? N D]; subst. rewrite map_app.
  assert (X : forall l, NoDup l -> (forall x, In x l -> owner x = k) -> NoDup (l ++ map fst (flat_map anno_of t))).
  { induction l as [|x l IHl]; simpl; intros Nl O; [apply IH; exact D|]. inversion Nl; subst. constructor; [|apply IHl; auto].
    rewrite in_app_iff. intros [J|J]; [contradiction|]. apply in_map_iff in J. destruct J as ([k' v'] & E & J). simpl in E. subst k'.
    apply in_flat_map in J. destruct J as ([tk tv] & J1 & J2). apply anno_owner in J2. rewrite (O x (or_introl eq_refl)) in J2. subst tk.
    apply N. apply (in_map fst) in J1. exact J1. }
  apply X; [apply anno_of_nodup|]. intros x I. apply in_map_iff in I. destruct I as ([k' v'] & E & I). simpl in E. subst k'. apply (anno_owner _ _ _ _ I).
Qed.
Lemma traits_annos_eq shapes t : (forall k v, In (k, v) t -> In k known_traits) -> NoDup (map fst t) -> traits_annos L shapes [] t = Ok (flat_map anno_of t).
Proof.
  intros H N. rewrite traits_annos_known by exact H. f_equal. pose proof (put_all_map fst snd _ (annos_nodup t N)) as E. unfold SmithyAst.put_all in E.
  change (fold_left putp (flat_map anno_of t) [] = flat_map anno_of t). etransitivity; [exact E|]. rewrite <- (map_id (flat_map anno_of t)) at 2. apply map_ext. intros [x y]. reflexivity.
Qed.
Lemma annos_in t k v : NoDup (map fst t) -> In (k, v) (flat_map anno_of t) <-> exists tv, get (owner k) t = Some tv /\ In (k, v) (anno_of (owner k, tv)).
Proof.
  intros N. rewrite in_flat_map. split.
  - intros ([tk tv] & I & J). pose proof (anno_owner _ _ _ _ J) as O. subst tk. exists tv. split; [apply (get_In _ _ _ N); exact I|exact J].
  - intros (tv & G & J). exists (owner k, tv). split; [apply (get_In _ _ _ N); exact G|exact J].
Qed.

(** ** The traits of a written type *)
Lemma anno_set s kv : exists t, anno_trait s kv = set_traits s t.
Proof.
  destruct kv as [k v]. unfold anno_trait. repeat match goal with |- context [if ?b then _ else _] => destruct b end; unfold add_trait; try (eexists; reflexivity);
    exists (sh_traits s); destruct s; reflexivity.
Qed.
Lemma annos_set l : forall s, exists t, fold_left anno_trait l s = set_traits s t.
Proof.
  induction l as [|kv l IH]; simpl; intros s; [exists (sh_traits s); destruct s; reflexivity|]. destruct (anno_set s kv) as (t & ->).
  destruct (IH (set_traits s t)) as (t' & ->). exists t'. reflexivity.
Qed.
Definition written_traits : list string := ["smithy.api#tags"; "smithy.api#sensitive"; "smithy.api#deprecated"].
Lemma anno_get_other q l : ~ In q written_traits -> forall s, get q (sh_traits (fold_left anno_trait l s)) = get q (sh_traits s).
Proof.
  intros N. assert (Q : q =?s "smithy.api#tags" = false /\ q =?s "smithy.api#sensitive" = false /\ q =?s "smithy.api#deprecated" = false).
  { unfold written_traits in N. simpl in N. repeat split; apply seqb_neq; intros ->; tauto. }
  destruct Q as (Q1 & Q2 & Q3). induction l as [|[k v] l IH]; simpl; intros s; [reflexivity|]. rewrite IH. unfold anno_trait.
  repeat match goal with |- context [if ?b then _ else _] => destruct b end; unfold add_trait; simpl; rewrite ?get_put, ?Q1, ?Q2, ?Q3; reflexivity.
Qed.
Lemma anno_get_tags l : NoDup (map fst l) -> forall s, get "smithy.api#tags" (sh_traits (fold_left anno_trait l s)) =
  match get "x_tags" l with Some v => Some (TArr (map TStr (split "," v))) | None => get "smithy.api#tags" (sh_traits s) end.
Proof.
  induction l as [|[k v] l IH]; cbn [fold_left map]; intros H s; [reflexivity|]. inversion H as [|? ? N D]; subst. rewrite (IH D). cbn [get].
  destruct (k =?s "x_tags") eqn:E.
  - apply seqb_eq in E. subst k. simpl in N. apply get_None in N. rewrite N. cbn [String.eqb Ascii.eqb Bool.eqb]. unfold anno_trait. rewrite seqb_refl. unfold add_trait. simpl. rewrite get_put. reflexivity.
  - replace ("x_tags" =?s k) with false by (symmetry; apply seqb_neq; apply seqb_neq in E; congruence). destruct (get "x_tags" l); [reflexivity|].
    unfold anno_trait. rewrite E. repeat match goal with |- context [if ?b then _ else _] => destruct b end; unfold add_trait; simpl; rewrite ?get_put; reflexivity.
Qed.
Definition deprecated_obj (v : string) : tval :=
  TObj (match cut "|" v with Some (a, b) => [("since", TStr a); ("message", TStr b)] | None => [("message", TStr v)] end).
Lemma anno_get_deprecated l : NoDup (map fst l) -> forall s, get "smithy.api#deprecated" (sh_traits (fold_left anno_trait l s)) =
  match get "x_deprecated" l with Some v => if v =?s "" then get "smithy.api#deprecated" (sh_traits s) else Some (deprecated_obj v)
  | None => get "smithy.api#deprecated" (sh_traits s) end.
Proof.
  induction l as [|[k v] l IH]; cbn [fold_left map]; intros H s; [reflexivity|]. inversion H as [|? ? N D]; subst. rewrite (IH D). cbn [get].
  destruct (k =?s "x_deprecated") eqn:E.
  - apply seqb_eq in E. subst k. simpl in N. apply get_None in N. rewrite N. cbn [String.eqb Ascii.eqb Bool.eqb]. unfold anno_trait. cbn [String.eqb Ascii.eqb Bool.eqb].
    destruct (v =?s ""); [reflexivity|]. unfold add_trait. simpl. rewrite get_put. reflexivity.
  - replace ("x_deprecated" =?s k) with false by (symmetry; apply seqb_neq; apply seqb_neq in E; congruence).
    assert (X : get "smithy.api#deprecated" (sh_traits (anno_trait s (k, v))) = get "smithy.api#deprecated" (sh_traits s)).
    { unfold anno_trait. rewrite E. repeat match goal with |- context [if ?b then _ else _] => destruct b end; unfold add_trait; simpl; rewrite ?get_put; reflexivity. }
    rewrite X. reflexivity.
Qed.
Lemma anno_keys l : forall s k, In k (map fst (sh_traits (fold_left anno_trait l s))) -> In k (map fst (sh_traits s)) \/ In k written_traits.
Proof.
  induction l as [|[k' v'] l IH]; simpl; intros s k I; [auto|]. apply IH in I. destruct I as [I|I]; [|auto]. unfold anno_trait in I.
  repeat match type of I with context [if ?b then _ else _] => destruct b end; unfold add_trait in I; simpl in I; rewrite ?put_keys in I; simpl; intuition.
Qed.
Lemma anno_nodup l : forall s, NoDup (map fst (sh_traits s)) -> NoDup (map fst (sh_traits (fold_left anno_trait l s))).
Proof.
  induction l as [|[k' v'] l IH]; simpl; intros s N; [exact N|]. apply IH. unfold anno_trait.
  repeat match goal with |- context [if ?b then _ else _] => destruct b end; unfold add_trait; simpl; try apply put_nodup; exact N.
Qed.

(** ** Marks *)
Definition last_of (xs : list exceptionspec) (n : string) : option Z :=
  fold_left (fun o x => if xc_type x =?s n then Some (xc_status x) else o) xs None.
Lemma last_of_snoc xs x n : last_of (xs ++ [x]) n = if xc_type x =?s n then Some (xc_status x) else last_of xs n.
Proof. unfold last_of. rewrite fold_left_app. reflexivity. Qed.
Lemma last_of_iff sch n z : last_of (flat_map h_exceptions (sc_http sch)) n = Some z <-> last_status sch n z.
Proof.
  unfold last_status. generalize (flat_map h_exceptions (sc_http sch)). intros xs. induction xs as [|x xs IH] using rev_ind.
  - split; [discriminate|]. intros (a & x & b & E & _). destruct a; discriminate.
  - rewrite last_of_snoc. destruct (xc_type x =?s n) eqn:E.
    + apply seqb_eq in E. split.
      * intros X. injection X as <-. exists xs, x, []. split; [reflexivity|]. split; [exact E|]. split; [reflexivity|intros ? []].
      * intros (a & y & b & X & T & S & F). destruct b as [|w b _] using rev_ind.
        { apply app_inj_tail in X. destruct X as [_ ->]. congruence. }
        rewrite app_comm_cons, app_assoc in X. apply app_inj_tail in X. destruct X as [_ ->]. elim (F w); [apply in_app_iff; simpl; auto|exact E].
    + apply seqb_neq in E. rewrite IH. split.
      * intros (a & y & b & -> & T & S & F). exists a, y, (b ++ [x]). split; [rewrite <- app_assoc; reflexivity|]. split; [exact T|]. split; [exact S|].
        intros w I. apply in_app_iff in I. destruct I as [I|[<-|[]]]; [apply F; exact I|exact E].
      * intros (a & y & b & X & T & S & F). destruct b as [|w b _] using rev_ind.
        { apply app_inj_tail in X. destruct X as [_ ->]. contradiction. }
        rewrite app_comm_cons, app_assoc in X. apply app_inj_tail in X. destruct X as [-> ->]. exists a, y, b. split; [reflexivity|]. split; [exact T|]. split; [exact S|].
        intros v I. apply F. apply in_app_iff. auto.
Qed.
Lemma mark_traits z s : sh_traits (mark_error z s) = put "smithy.api#error" (TStr (http_error_category z)) (put "smithy.api#httpError" (TInt z) (sh_traits s)).
Proof. unfold mark_error. simpl. destruct (sh_members s) as [|[k m] [|x l]]; reflexivity. Qed.
Lemma marks_get_other q xs n s : q <> "smithy.api#error" -> q <> "smithy.api#httpError" -> get q (sh_traits (marks xs n s)) = get q (sh_traits s).
Proof.
  intros Q1 Q2. apply seqb_neq in Q1, Q2. induction xs as [|x xs IH] using rev_ind; [reflexivity|]. rewrite marks_snoc. unfold mark1.
  destruct (xc_type x =?s n); [|exact IH]. rewrite mark_traits, !get_put, Q1, Q2. exact IH.
Qed.
Lemma marks_get_error xs n s : get "smithy.api#error" (sh_traits (marks xs n s)) =
  match last_of xs n with Some z => Some (TStr (http_error_category z)) | None => get "smithy.api#error" (sh_traits s) end.
Proof.
  induction xs as [|x xs IH] using rev_ind; [reflexivity|]. rewrite marks_snoc, last_of_snoc. unfold mark1. destruct (xc_type x =?s n); [|exact IH].
  rewrite mark_traits, get_put. reflexivity.
Qed.
Lemma marks_get_http xs n s : get "smithy.api#httpError" (sh_traits (marks xs n s)) =
  match last_of xs n with Some z => Some (TInt z) | None => get "smithy.api#httpError" (sh_traits s) end.
Proof.
  induction xs as [|x xs IH] using rev_ind; [reflexivity|]. rewrite marks_snoc, last_of_snoc. unfold mark1. destruct (xc_type x =?s n); [|exact IH].
  rewrite mark_traits, !get_put. reflexivity.
Qed.
Lemma marks_keys xs n s k : In k (map fst (sh_traits (marks xs n s))) -> In k (map fst (sh_traits s)) \/ k = "smithy.api#error" \/ k = "smithy.api#httpError".
Proof.
  induction xs as [|x xs IH] using rev_ind; [auto|]. rewrite marks_snoc. unfold mark1. destruct (xc_type x =?s n); [|exact IH].
  rewrite mark_traits, !put_keys. intuition.
Qed.
Lemma marks_nodup xs n s : NoDup (map fst (sh_traits s)) -> NoDup (map fst (sh_traits (marks xs n s))).
Proof.
  intros N. induction xs as [|x xs IH] using rev_ind; [exact N|]. rewrite marks_snoc. unfold mark1. destruct (xc_type x =?s n); [|exact IH].
  rewrite mark_traits. apply put_nodup, put_nodup. exact IH.
Qed.
Lemma put_put {A} k (v : A) l : put k v (put k v l) = put k v l.
Proof.
  induction l as [|[n w] l IH]; simpl; [rewrite seqb_refl; reflexivity|]. destruct (k =?s n) eqn:E; simpl; [rewrite seqb_refl; reflexivity|]. rewrite E, IH. reflexivity.
Qed.
Definition paid (m : member) : member := add_mtrait "smithy.api#httpPayload" (TBool true) m.
Lemma marks_rest xs n s : let r := marks xs n s in
  sh_type r = sh_type s /\ sh_member r = sh_member s /\ sh_key r = sh_key s /\ sh_value r = sh_value s
  /\ (sh_members r = sh_members s \/ exists k m, sh_members s = [(k, m)] /\ sh_members r = [(k, paid m)]).
Proof.
  simpl. induction xs as [|x xs (T & M & K & V & MM)] using rev_ind; [simpl; auto 10|]. rewrite marks_snoc. unfold mark1. destruct (xc_type x =?s n); [|auto].
  unfold mark_error. simpl. remember (marks xs n s) as r eqn:ER. clear ER.
  destruct (sh_members r) as [|[k m] [|y l]] eqn:E; simpl.
  - rewrite E. auto 10.
  - split; [exact T|]. split; [exact M|]. split; [exact K|]. split; [exact V|]. right. destruct MM as [MM|(k' & m' & MM & X)].
    + exists k, m. rewrite <- MM. split; reflexivity.
    + injection X as -> ->. exists k', m'. split; [exact MM|]. unfold paid, add_mtrait. simpl. rewrite put_put. reflexivity.
  - rewrite E. auto 10.
Qed.

(** ** Types by name *)
Context (ns : string).
Hypothesis HU : user_namespace ns.
Lemma reference_back t : no_hash t -> shape_to_type (type_reference ns t) = name_back t.
Proof.
  intros H. destruct HU as [U1 U2]. unfold type_reference, name_back.
  repeat match goal with |- context [t =?s ?k] => destruct (t =?s k) eqn:?E; [apply seqb_eq in E; subst t; reflexivity|clear E] end.
  apply user_back; assumption.
Qed.
Lemma variant_back_ok t : no_hash t -> variant_type_back t (shape_to_type (ensure_namespaced ns t)).
Proof.
  intros H. destruct HU as [U1 U2]. unfold ensure_namespaced. destruct (str_mem t smithy_names) eqn:E.
  - apply str_mem_In in E. unfold smithy_names in E. simpl in E.
    repeat (destruct E as [<-|E]; [first [left; vm_compute; tauto|right; split; [vm_compute; intuition discriminate|reflexivity]]|]). destruct E.
  - rewrite (proj1 (no_char_smem _ _) H). simpl negb. cbv iota. rewrite user_back by assumption. right. split; [|reflexivity].
    intros I. assert (J : In t smithy_names) by (vm_compute in I |- *; tauto). apply str_mem_In in J. congruence.
Qed.

(** ** A written type *)
Lemma category_eq z : http_error_category z = category z.
Proof. unfold http_error_category, category. destruct (z <? 200)%Z, (z <? 300)%Z, (z <? 400)%Z; try reflexivity. destruct (z <? 500)%Z eqn:E, (500 <=? z)%Z eqn:F; try reflexivity; lia. Qed.
Lemma strings_back l : string_array (TArr (map TStr l)) = l.
Proof. simpl. assert (H : all_texts (map TStr l) = Some l) by (induction l as [|x l IH]; simpl; [reflexivity|rewrite IH; reflexivity]). rewrite H. reflexivity. Qed.
Definition doc_traits : list string :=
  ["smithy.api#documentation"; "smithy.api#tags"; "smithy.api#sensitive"; "smithy.api#deprecated"; "smithy.api#error"; "smithy.api#httpError"].
Definition base_traits : list string := ["smithy.api#length"; "smithy.api#pattern"; "smithy.api#enum"; "smithy.api#range"].
Lemma base_keys ts a s0 : shape_of_type ns ts a = Ok s0 -> NoDup (map fst (sh_traits s0)) /\ (forall k, In k (map fst (sh_traits s0)) -> In k base_traits)
  /\ (In (ts_type ts) (number_kinds ++ ["Enum"; "Struct"; "Union"]) -> forall k, In k (map fst (sh_traits s0)) -> k = "smithy.api#range").
Proof.
  intros H. unfold shape_of_type in H. destruct (str_mem (ts_type ts) number_types) eqn:N.
  { injection H as <-. simpl. unfold range_trait. destruct (ts_min ts), (ts_max ts); simpl; (split; [repeat constructor; simpl; tauto|]); split; intuition. }
  destruct (ts_type ts =?s "String") eqn:E.
  { apply seqb_eq in E. injection H as <-. simpl. split; [|split; [|rewrite E; intros X; exfalso; vm_compute in X; intuition discriminate]]; unfold length_trait;
      destruct (ts_minsize ts), (ts_maxsize ts), (ts_pattern ts =?s ""), (ts_values ts) as [[|? ?]|]; simpl;
      try (repeat constructor; simpl; intuition discriminate); intuition. }
  destruct (ts_type ts =?s "Enum"). { injection H as <-. simpl. split; [constructor|]. split; [|intros _]; intros k []. }
  destruct (ts_type ts =?s "Struct"). { injection H as <-. simpl. split; [constructor|]. split; [|intros _]; intros k []. }
  destruct (ts_type ts =?s "Array") eqn:E1.
  { apply seqb_eq in E1. injection H as <-. simpl. split; [|split; [|rewrite E1; intros X; exfalso; vm_compute in X; intuition discriminate]]; unfold length_trait;
      destruct (ts_minsize ts), (ts_maxsize ts); simpl; try (repeat constructor; simpl; intuition discriminate); intuition. }
  destruct (ts_type ts =?s "Union"). { injection H as <-. simpl. split; [constructor|]. split; [|intros _]; intros k []. }
  destruct (ts_type ts =?s "Map"). { injection H as <-. simpl. split; [constructor|]. split; [|intros _]; intros k []. }
  destruct (ts_type ts =?s "UUID") eqn:E2; [|discriminate]. apply seqb_eq in E2. injection H as <-. simpl. split; [repeat constructor; simpl; tauto|].
  split; [intuition|]. rewrite E2. intros X. exfalso. vm_compute in X. intuition discriminate.
Qed.
Section OneType.
Context (td : typedef) (s0 : shape) (xs : list exceptionspec).
Hypothesis H0 : shape_of_type ns (td_spec td) (td_annos td) = Ok s0.
Hypothesis HA : NoDup (map fst (td_annos td)).
Definition fshape : shape := marks xs (td_name td) (tshape ns td).
Notation T := (sh_traits fshape).
Lemma tshape_eq : tshape ns td = fold_left anno_trait (td_annos td) (if td_comment td =?s "" then s0 else add_trait "smithy.api#documentation" (TStr (td_comment td)) s0).
Proof. unfold tshape, typedef_shape. rewrite H0. reflexivity. Qed.
Lemma pre_keys k : In k (map fst (sh_traits (if td_comment td =?s "" then s0 else add_trait "smithy.api#documentation" (TStr (td_comment td)) s0))) ->
  In k (map fst (sh_traits s0)) \/ k = "smithy.api#documentation".
Proof. destruct (td_comment td =?s ""); [auto|]. unfold add_trait. simpl. rewrite put_keys. tauto. Qed.
Lemma final_nodup : NoDup (map fst T).
Proof.
  apply marks_nodup. rewrite tshape_eq. apply anno_nodup. destruct (td_comment td =?s ""); [|unfold add_trait; simpl; apply put_nodup]; apply (base_keys _ _ _ H0).
Qed.
Lemma final_keys k : In k (map fst T) -> In k (map fst (sh_traits s0)) \/ In k doc_traits.
Proof.
  intros I. apply marks_keys in I. rewrite tshape_eq in I. unfold doc_traits. destruct I as [I|[-> | ->]]; [|simpl; tauto ..].
  apply anno_keys in I. destruct I as [I|I]; [|right; unfold written_traits in I; simpl in I |- *; tauto]. apply pre_keys in I. destruct I as [I| ->]; simpl; auto.
Qed.
Lemma final_get q : ~ In q doc_traits -> get q T = get q (sh_traits s0).
Proof.
  intros N. unfold doc_traits in N. simpl in N. unfold fshape. rewrite marks_get_other by (intros ->; tauto). rewrite tshape_eq.
  rewrite anno_get_other by (unfold written_traits; simpl; intuition). destruct (td_comment td =?s ""); [reflexivity|]. unfold add_trait. simpl. rewrite get_put.
  destruct (q =?s "smithy.api#documentation") eqn:E; [apply seqb_eq in E; subst q; tauto|reflexivity].
Qed.
Lemma base_none q : In q doc_traits -> get q (sh_traits s0) = None.
Proof.
  intros I. apply get_None. intros J. destruct (base_keys _ _ _ H0) as (_ & B & _). apply B in J. unfold doc_traits, base_traits in *. simpl in *.
  intuition (subst; discriminate).
Qed.
Lemma final_doc : get "smithy.api#documentation" T = if td_comment td =?s "" then None else Some (TStr (td_comment td)).
Proof.
  unfold fshape. rewrite marks_get_other by discriminate. rewrite tshape_eq. rewrite anno_get_other by (unfold written_traits; simpl; intuition discriminate).
  destruct (td_comment td =?s ""); [apply base_none; simpl; tauto|]. unfold add_trait. simpl. rewrite get_put. reflexivity.
Qed.
Lemma pre_none q : In q doc_traits -> q <> "smithy.api#documentation" ->
  get q (sh_traits (if td_comment td =?s "" then s0 else add_trait "smithy.api#documentation" (TStr (td_comment td)) s0)) = None.
Proof.
  intros I N. destruct (td_comment td =?s ""); [apply base_none; exact I|]. unfold add_trait. simpl. rewrite get_put. apply seqb_neq in N. rewrite N. apply base_none. exact I.
Qed.
Lemma final_tags : get "smithy.api#tags" T = option_map (fun v => TArr (map TStr (split "," v))) (get "x_tags" (td_annos td)).
Proof.
  unfold fshape. rewrite marks_get_other by discriminate. rewrite tshape_eq, (anno_get_tags _ HA). destruct (get "x_tags" (td_annos td)); [reflexivity|].
  apply pre_none; [simpl; tauto|discriminate].
Qed.
Lemma final_deprecated tv : get "smithy.api#deprecated" T = Some tv <-> exists v, v <> "" /\ In ("x_deprecated", v) (td_annos td) /\ tv = deprecated_obj v.
Proof.
  unfold fshape. rewrite marks_get_other by discriminate. rewrite tshape_eq, (anno_get_deprecated _ HA).
  rewrite pre_none by (simpl; try tauto; discriminate). destruct (get "x_deprecated" (td_annos td)) as [v|] eqn:E.
  - apply (get_In _ _ _ HA) in E. destruct (v =?s "") eqn:X.
    + apply seqb_eq in X. subst v. split; [discriminate|]. intros (v & N & I & _). apply (get_In _ _ _ HA) in I. apply (get_In _ _ _ HA) in E. congruence.
    + apply seqb_neq in X. split; [intros Y; injection Y as <-; exists v; auto|]. intros (w & N & I & ->).
      apply (get_In _ _ _ HA) in I. apply (get_In _ _ _ HA) in E. congruence.
  - split; [discriminate|]. intros (v & N & I & _). apply (get_In _ _ _ HA) in I. congruence.
Qed.
Lemma final_error : get "smithy.api#error" T = option_map (fun z => TStr (category z)) (last_of xs (td_name td)).
Proof.
  unfold fshape. rewrite marks_get_error. destruct (last_of xs (td_name td)); [rewrite category_eq; reflexivity|].
  rewrite tshape_eq, anno_get_other by (unfold written_traits; simpl; intuition discriminate). apply pre_none; [simpl; tauto|discriminate].
Qed.
Lemma final_http : get "smithy.api#httpError" T = option_map TInt (last_of xs (td_name td)).
Proof.
  unfold fshape. rewrite marks_get_http. destruct (last_of xs (td_name td)); [reflexivity|].
  rewrite tshape_eq, anno_get_other by (unfold written_traits; simpl; intuition discriminate). apply pre_none; [simpl; tauto|discriminate].
Qed.
Lemma final_rest : sh_type fshape = sh_type s0 /\ sh_member fshape = sh_member s0 /\ sh_key fshape = sh_key s0 /\ sh_value fshape = sh_value s0
  /\ (sh_members fshape = sh_members s0 \/ exists k m, sh_members s0 = [(k, m)] /\ sh_members fshape = [(k, paid m)]).
Proof.
  pose proof (marks_rest xs (td_name td) (tshape ns td)) as R. simpl in R. fold fshape in R.
  assert (Q : sh_type (tshape ns td) = sh_type s0 /\ sh_member (tshape ns td) = sh_member s0 /\ sh_key (tshape ns td) = sh_key s0 /\ sh_value (tshape ns td) = sh_value s0
    /\ sh_members (tshape ns td) = sh_members s0).
  { rewrite tshape_eq. destruct (annos_set (td_annos td) (if td_comment td =?s "" then s0 else add_trait "smithy.api#documentation" (TStr (td_comment td)) s0)) as (t & ->).
    destruct (td_comment td =?s ""); simpl; auto. }
  destruct Q as (Q1 & Q2 & Q3 & Q4 & Q5). rewrite Q1, Q2, Q3, Q4, Q5 in R. exact R.
Qed.
Lemma final_doc_back : comment_back (td_comment td) (doc_of T).
Proof. apply doc_back. apply final_doc. Qed.
Definition trait_annos_back (k v : string) : Prop :=
  (k = "x_tags" /\ v <> "" /\ In (k, v) (td_annos td))
  \/ (k = "x_deprecated" /\ v = "true" /\ exists d, d <> "" /\ In (k, d) (td_annos td))
  \/ (k = "x_deprecated_message" /\ v <> "" /\ exists d, In ("x_deprecated", d) (td_annos td)
       /\ ((no_char "|" d /\ v = d) \/ exists s, no_char "|" s /\ d = s +++ "|" +++ v))
  \/ (k = "x_deprecated_since" /\ v <> "" /\ exists m, no_char "|" v /\ In ("x_deprecated", v +++ "|" +++ m) (td_annos td))
  \/ (k = "x_error" /\ exists z, last_of xs (td_name td) = Some z /\ v = category z)
  \/ (k = "x_httpError" /\ v <> "" /\ exists z, last_of xs (td_name td) = Some z /\ v = sl_text L z).
Lemma anno_of_in tk tv k v : In (k, v) (anno_of (tk, tv)) <-> In (k, v) (raw_annos (tk, tv)) /\ v <> "".
Proof. unfold anno_of. rewrite filter_In. simpl snd. rewrite negb_true_iff, seqb_neq. tauto. Qed.
Lemma category_ne z : category z <> "".
Proof. unfold category. repeat match goal with |- context [if ?b then _ else _] => destruct b end; discriminate. Qed.
Lemma final_annos shapes : In (ts_type (td_spec td)) (number_kinds ++ ["Enum"; "Struct"; "Union"]) ->
  exists a, traits_annos L shapes [] T = Ok a /\ forall k v, In (k, v) a <-> trait_annos_back k v.
Proof.
  intros K. destruct (base_keys _ _ _ H0) as (_ & _ & B). specialize (B K). exists (flat_map anno_of T). split.
  { apply traits_annos_eq; [|apply final_nodup]. intros k v I. apply (in_map fst) in I. simpl in I. apply final_keys in I. destruct I as [I|I].
    - apply B in I. subst k. simpl. tauto.
    - unfold doc_traits in I. simpl in I. unfold known_traits. simpl. intuition. }
  intros k v. rewrite (annos_in _ _ _ final_nodup). unfold trait_annos_back. split.
  - intros (tv & G & I). apply anno_of_in in I. destruct I as [I N]. unfold owner in G, I.
    destruct (k =?s "x_error") eqn:E1.
    { apply seqb_eq in E1. subst k. rewrite final_error in G. destruct (last_of xs (td_name td)) as [z|]; [|discriminate]. injection G as <-.
      simpl in I. destruct I as [I|[]]. injection I as <-. right. right. right. right. left. eauto. }
    destruct (k =?s "x_httpError") eqn:E2.
    { apply seqb_eq in E2. subst k. rewrite final_http in G. destruct (last_of xs (td_name td)) as [z|]; [|discriminate]. injection G as <-.
      simpl in I. destruct I as [I|[]]. injection I as <-. right. right. right. right. right. split; [reflexivity|]. split; [exact N|]. eauto. }
    destruct (k =?s "x_tags") eqn:E3.
    { apply seqb_eq in E3. subst k. rewrite final_tags in G. destruct (get "x_tags" (td_annos td)) as [w|] eqn:Gt; [|discriminate]. injection G as <-.
      unfold raw_annos in I. cbn [String.eqb Ascii.eqb Bool.eqb] in I. rewrite strings_back, (join_split ",") in I. destruct I as [I|[]]. injection I as <-.
      left. split; [reflexivity|]. split; [exact N|]. apply (get_In _ _ _ HA). exact Gt. }
    destruct (k =?s "x_enumValue") eqn:E4. { rewrite final_get in G by (simpl; intuition discriminate). exfalso. apply get_Some_In in G. apply (in_map fst) in G. apply B in G. discriminate. }
    destruct (k =?s "x_paginated") eqn:E5. { rewrite final_get in G by (simpl; intuition discriminate). exfalso. apply get_Some_In in G. apply (in_map fst) in G. apply B in G. discriminate. }
    apply final_deprecated in G. destruct G as (d & D & J & ->). simpl in I. unfold deprecated_obj in I.
    destruct I as [I|[I|[I|[]]]]; injection I as <- <-.
    + right. left. eauto.
    + right. right. left. split; [reflexivity|]. split; [exact N|]. exists d. split; [exact J|]. destruct (cut "|" d) as [[x y]|] eqn:C; simpl in *.
      * apply cut_Some in C. destruct C as [C1 C2]. right. exists x. split; [apply no_char_smem; exact C2|exact C1].
      * apply cut_None in C. left. split; [apply no_char_smem; exact C|reflexivity].
    + right. right. right. left. split; [reflexivity|]. split; [exact N|]. destruct (cut "|" d) as [[x y]|] eqn:C; simpl in *; [|elim N; reflexivity].
      apply cut_Some in C. destruct C as [C1 C2]. exists y. split; [apply no_char_smem; exact C2|]. change (In ("x_deprecated", x +++ String "|" y) (td_annos td)). rewrite <- C1. exact J.
  - intros [(-> & N & I)|[(-> & -> & d & D & I)|[(-> & N & d & I & X)|[(-> & N & m & NC & I)|[(-> & z & G & ->)|(-> & N & z & G & ->)]]]]].
    + apply (get_In _ _ _ HA) in I. eexists. change (owner "x_tags") with "smithy.api#tags". rewrite final_tags, I. split; [reflexivity|]. apply anno_of_in. split; [|exact N].
      unfold raw_annos. cbn [String.eqb Ascii.eqb Bool.eqb]. rewrite strings_back, (join_split ","). left. reflexivity.
    + exists (deprecated_obj d). split; [apply final_deprecated; eauto|]. apply anno_of_in. split; [simpl; auto|discriminate].
    + assert (D : d <> ""). { destruct X as [[_ <-]|(s & _ & ->)]; [exact N|]. destruct s; discriminate. }
      exists (deprecated_obj d). split; [apply final_deprecated; eauto|]. apply anno_of_in. split; [|exact N]. simpl. right. left. f_equal. unfold deprecated_obj.
      destruct X as [[NC <-]|(s & NC & ->)].
      * rewrite (proj2 (cut_None "|" v)) by (apply no_char_smem; exact NC). reflexivity.
      * rewrite (proj2 (cut_Some "|" (s +++ "|" +++ v) s v)) by (split; [reflexivity|apply no_char_smem; exact NC]). reflexivity.
    + exists (deprecated_obj (v +++ "|" +++ m)). split; [apply final_deprecated; exists (v +++ "|" +++ m); split; [destruct v; discriminate|auto]|].
      apply anno_of_in. split; [|exact N]. right. right. left. f_equal. unfold deprecated_obj.
      rewrite (proj2 (cut_Some "|" (v +++ "|" +++ m) v m)) by (split; [reflexivity|apply no_char_smem; exact NC]). reflexivity.
    + eexists. change (owner "x_error") with "smithy.api#error". rewrite final_error, G. split; [reflexivity|]. apply anno_of_in. split; [simpl; auto|apply category_ne].
    + eexists. change (owner "x_httpError") with "smithy.api#httpError". rewrite final_http, G. split; [reflexivity|]. apply anno_of_in. split; [simpl; auto|exact N].
Qed.
End OneType.
End Read.
