(** ParseOptions against its grammar. *)
From Verif Require Import GoStr Outcome Value Schema Scalars Model Misc ParserValidate Scan ScanFacts Parser Acts SpecText SpecOptions LiteralFacts.

(** ** Integers *)
Lemma digit_val_iff c d : digit_val c = Some d <-> digit c d.
Proof.
  split.
  - unfold digit_val. destruct (is_digit c) eqn:E; [|discriminate]. injection 1 as <-.
    exists (nat_of_ascii c - 48). unfold is_digit, ch_in in E.
    assert (48 <= nat_of_ascii c <= 57) as B.
    { destruct c as [[] [] [] [] [] [] [] []]; vm_compute in E; try discriminate; vm_compute; lia. }
    split; [lia|]. split; [|reflexivity]. replace (48 + (nat_of_ascii c - 48)) with (nat_of_ascii c) by lia.
    symmetry. apply ascii_nat_embedding.
  - intros (n & Hn & -> & ->).
    do 10 (destruct n as [|n]; [reflexivity|]). lia.
Qed.
Lemma digits_val_snoc s : forall acc c, digits_val acc (s +++ String c "") =
  match digits_val acc s with
  | Some z => match digit_val c with Some d => Some (z * 10 + d)%Z | None => None end
  | None => None
  end.
Proof.
  induction s as [|x s IH]; intros acc c; simpl.
  - destruct (digit_val c); reflexivity.
  - destruct (digit_val x); [apply IH|reflexivity].
Qed.
Lemma digits_acc s : forall d p z, digits p d -> digits_val d s = Some z -> digits (p +++ s) z.
Proof.
  induction s as [|c s IH]; intros d p z H; simpl.
  - injection 1 as <-. rewrite append_nil_r. exact H.
  - destruct (digit_val c) as [d'|] eqn:D'; [|discriminate]. intros E.
    replace (p +++ String c s) with ((p +++ String c "") +++ s) by (rewrite append_assoc; reflexivity).
    eapply IH; [|exact E]. replace (d * 10 + d')%Z with (10 * d + d')%Z by lia. constructor; [exact H|]. apply digit_val_iff, D'.
Qed.
Lemma unsigned_iff s z : unsigned_val s = Some z <-> digits s z.
Proof.
  split.
  - destruct s as [|c s]; [discriminate|]. unfold unsigned_val. simpl.
    destruct (digit_val c) as [d|] eqn:D; [|discriminate].
    assert (digits (String c "") d) as H by (constructor; apply digit_val_iff, D).
    change (String c s) with (String c "" +++ s). replace (0 * 10 + d)%Z with d by lia.
    intros E. eapply digits_acc; [exact H|exact E].
  - intros H. assert (digits_val 0 s = Some z) as E.
    { induction H as [c d D|s z c d _ IH D].
      - apply digit_val_iff in D. simpl. rewrite D. reflexivity.
      - rewrite digits_val_snoc, IH. apply digit_val_iff in D. rewrite D. f_equal. lia. }
    destruct s; [|exact E]. inversion H as [|s' z' c d' _ _ E']. destruct s'; discriminate.
Qed.
Lemma digits_first s z : digits s z -> exists c r d, s = String c r /\ digit c d.
Proof.
  induction 1 as [c d D|s z c d _ IH D]; [eauto 6|]. destruct IH as (c0 & r & d0 & -> & D0). simpl. eauto 6.
Qed.
Lemma digit_not_sign c d : digit c d -> c <> "+"%char /\ c <> "-"%char.
Proof.
  intros D. apply digit_val_iff in D. split; intros ->; discriminate.
Qed.
Lemma parse_int64_iff s z : parse_int 64 s = Some z <-> int64 s z.
Proof.
  assert (forall x, (if ((- 2 ^ (64 - 1) <=? x)%Z && (x <? 2 ^ (64 - 1))%Z)%bool then Some x else None) = Some z
     <-> x = z /\ (- 2 ^ 63 <= z < 2 ^ 63)%Z) as K.
  { intros x. change (64 - 1)%Z with 63%Z. destruct (Z.leb_spec (- 2 ^ 63) x), (Z.ltb_spec x (2 ^ 63)); simpl; split;
      try discriminate; try (intros (-> & ?); lia); try (injection 1 as <-; lia). intros (-> & _). reflexivity. }
  assert (forall y, (forall r, y <> String "+" r) -> (forall r, y <> String "-" r) ->
     parse_int 64 y = match unsigned_val y with Some x => if ((- 2 ^ (64 - 1) <=? x)%Z && (x <? 2 ^ (64 - 1))%Z)%bool then Some x else None | None => None end) as P.
  { intros y H1 H2. unfold parse_int. destruct y as [|[[] [] [] [] [] [] [] []] y]; try reflexivity;
      [destruct (H1 y eq_refl)|destruct (H2 y eq_refl)]. }
  unfold int64. split.
  - intros H. destruct s as [|c s]; [discriminate|].
    destruct (ascii_dec c "+") as [-> |N1]; [|destruct (ascii_dec c "-") as [-> |N2]].
    + unfold parse_int in H. destruct (unsigned_val s) as [x|] eqn:U; [|discriminate]. apply K in H as (-> & B).
      split; [|exact B]. apply int_plus, unsigned_iff, U.
    + unfold parse_int in H. destruct (unsigned_val s) as [x|] eqn:U; [|discriminate]. apply K in H as (<- & B).
      split; [|exact B]. apply int_minus, unsigned_iff, U.
    + rewrite P in H by (intros r E; injection E as -> ->; congruence).
      destruct (unsigned_val (String c s)) as [x|] eqn:U; [|discriminate]. apply K in H as (<- & B).
      split; [|exact B]. apply int_plain, unsigned_iff, U.
  - intros (H & B). inversion H as [s0 z0 D|s0 z0 D|s0 z0 D]; subst.
    + destruct (digits_first _ _ D) as (c & r & d & E & Dc). destruct (digit_not_sign _ _ Dc) as (N1 & N2).
      rewrite P by (intros r' E'; rewrite E in E'; injection E' as -> ->; congruence).
      apply unsigned_iff in D. rewrite D. apply K. auto.
    + apply unsigned_iff in D. unfold parse_int. rewrite D. apply K. auto.
    + apply unsigned_iff in D. unfold parse_int. rewrite D. apply K. auto.
Qed.

(** ** The readers of arguments *)
Definition f_eq {A} (g : list token -> option (A * list token)) (l : list token) := obind (f_expect EQUALS l) (fun _ => g).
Lemma a_eq {A} (p : prog A) g : acts p g -> acts (_ <~ expect EQUALS ;; p) (f_eq g).
Proof. intros H. apply (acts_bind _ _ _ (fun _ => g)); [apply a_expect|]. intros _. exact H. Qed.
Definition str_body (vs : list string) : list token -> option ((list string + list string) * list token) :=
  case_list None (fun tok r =>
    match tk_type tok with
    | CLOSE_BRACKET => Some (inr vs, r)
    | STRING => Some (inl (vs ++ [tk_text tok]), r)
    | COMMA | NEWLINE => Some (inl vs, r)
    | _ => None
    end).
Definition nonempty {A} (l : list A) : option (list A) := match l with [] => None | _ => Some l end.
Definition f_strings n (l : list token) :=
  obind (f_expect EQUALS l) (fun _ l => obind (f_expect OPEN_BRACKET l) (fun _ l =>
    obind (floop n str_body [] l) (fun vs l => Some (nonempty vs, l)))).
Lemma a_strings n : acts (expect_equals_string_array n) (f_strings n).
Proof.
  unfold expect_equals_string_array.
  set (inner := fun l => obind (floop n str_body [] l) (fun vs l => Some (nonempty vs, l))).
  eapply acts_ext; [|apply (acts_get _ None (fun t r => if is_type EQUALS t then
     case_list None (fun t r => if is_type OPEN_BRACKET t then inner r else None) r else None)); [|apply acts_fail]].
  2: { intros t. apply acts_any. destruct (is_type EQUALS t); [|apply acts_fail].
       apply acts_get; [|apply acts_fail]. intros t0. apply acts_any.
       destruct (is_type OPEN_BRACKET t0); [|apply acts_fail].
       apply (acts_bind _ _ _ (fun vs l => Some (nonempty vs, l))); [|intros a; apply acts_ret].
       apply acts_loop. intros vs. apply acts_get; [|apply acts_fail].
       intros t1. apply acts_any. destruct (tk_type t1); first [apply acts_ret|apply acts_fail]. }
  intros l. unfold f_strings, f_expect, f_one, c_type, case_list.
  destruct l as [|t l]; [reflexivity|]. destruct (is_type EQUALS t); [|reflexivity]. simpl.
  destruct l as [|t1 l]; [reflexivity|]. destruct (is_type OPEN_BRACKET t1); reflexivity.
Qed.
Definition f_ext (a : annos) (name : string) : list token -> option (annos * list token) :=
  case_list None (fun t r => if is_type EQUALS t then obind (f_text STRING r) (fun v r => Some (assoc_set name v a, r))
                             else Some (assoc_set name "" a, t :: r)).
Lemma a_ext a name : acts (parse_extended_option a name) (f_ext a name).
Proof.
  unfold parse_extended_option, f_ext. apply acts_get; [|apply acts_fail]. intros t.
  destruct (is_type EQUALS t).
  - apply acts_any. apply (acts_bind _ _ _ (fun v r => Some (assoc_set name v a, r))); [apply a_string|intros; apply acts_ret].
  - apply (acts_unget t _ (fun l => Some (assoc_set name "" a, l))). apply acts_ret.
Qed.

Section O.
Variable X : ext.
Definition keep {A} (g : A -> options) : A -> list token -> option (options * list token) := fun v r => Some (g v, r).
Definition f_option (n : nat) (m : string) (o : options) (l : list token) : option (options * list token) :=
  let num := f_eq (f_one (c_type NUMBER (fun t => x_decimal X (tk_text t)))) in
  let int := f_eq (f_one (c_type NUMBER (fun t => parse_int 64 (tk_text t)))) in
  let str := f_eq (f_text STRING) in
  let sym := f_eq (f_text SYMBOL) in
  if m =?s "min" then obind (num l) (keep (fun v => set_opt_min v o))
  else if m =?s "max" then obind (num l) (keep (fun v => set_opt_max v o))
  else if m =?s "minsize" then obind (int l) (keep (fun v => set_opt_minsize v o))
  else if m =?s "maxsize" then obind (int l) (keep (fun v => set_opt_maxsize v o))
  else if m =?s "pattern" then obind (str l) (keep (fun v => set_opt_pattern v o))
  else if m =?s "values" then obind (f_strings n l) (keep (fun v => set_opt_values v o))
  else if m =?s "required" then Some (set_opt_required o, l)
  else if m =?s "default" then obind (f_eq (case_list None (f_literal X n)) l) (keep (fun v => set_opt_default v o))
  else if (m =?s "action") || (m =?s "operation") then obind (sym l) (keep (fun v => set_opt_action v o))
  else if m =?s "resource" then obind (sym l) (keep (fun v => set_opt_resource v o))
  else if m =?s "reference" then obind (sym l) (keep (fun v => set_opt_reference v o))
  else if m =?s "header" then obind (str l) (keep (fun v => set_opt_header v o))
  else if m =?s "name" then obind (sym l) (keep (fun v => set_opt_name v o))
  else None.
Lemma a_keep {A} (p : prog A) f (g : A -> options) : acts p f -> acts (v <~ p ;; Ret (g v)) (fun l => obind (f l) (keep g)).
Proof. intros H. apply acts_bind; [exact H|]. intros a. apply acts_ret. Qed.
Lemma a_option n m o : acts (parse_option X n m o) (f_option n m o).
Proof.
  unfold parse_option, f_option, expect_equals_number, expect_equals_int64, expect_equals_string,
    expect_equals_identifier, parse_equals_literal.
  repeat match goal with |- context [if ?b then _ else _] => destruct b end;
  try (apply a_keep; first [apply a_eq, a_number|apply a_eq, a_int|apply a_eq, a_string|apply a_eq, a_identifier
                           |apply a_strings|apply a_eq, a_literal_value]);
  first [apply acts_ret|apply acts_fail].
Qed.
Definition opts_body (n : nat) (acc : list string) (o : options) : list token -> option ((options + options) * list token) :=
  case_list None (fun tok r =>
    match tk_type tok with
    | CLOSE_PAREN => Some (inr o, r)
    | SYMBOL =>
        let m := to_lower (tk_text tok) in
        obind (if has_prefix "x_" m then obind (f_ext (o_annos o) (tk_text tok) r) (fun a r => Some (set_opt_annos a o, r))
               else if str_mem m acc then f_option n m o r else None) (fun o' r => Some (inl o', r))
    | COMMA => Some (inl o, r)
    | _ => None
    end).
Definition f_options n acc : list token -> option (options * list token) :=
  case_list (Some (no_options, [])) (fun t r =>
    if is_type OPEN_PAREN t then floop n (opts_body n acc) no_options r else Some (no_options, t :: r)).
Lemma acts_nil {A} (a : A) : forall st, pending st = [] -> does (Some (a, [])) (run (Ret a) st).
Proof. intros st P. simpl. eauto. Qed.
Lemma acts_get' {A} (k : option token -> prog A) fn fc :
  (forall t, acts_at t (k (Some t)) (fc t)) -> (forall st, pending st = [] -> does fn (run (k None) st)) ->
  acts (Get k) (case_list fn fc).
Proof.
  intros Hc Hn st. simpl. pose proof (get_token_spec st) as G.
  destruct (get_token st) as [[t|] st'].
  - destruct G as (-> & F). simpl. apply Hc, F.
  - destruct G as (-> & P & _). simpl. apply Hn, P.
Qed.
Lemma a_options n acc : acts (parse_options X n acc) (f_options n acc).
Proof.
  unfold parse_options, f_options. apply acts_get'; [|apply acts_nil]. intros t.
  destruct (is_type OPEN_PAREN t).
  - apply acts_any, acts_loop. intros o. apply acts_get; [|apply acts_fail]. intros t0. apply acts_any.
    destruct (tk_type t0); try apply acts_ret; try apply acts_fail. cbv zeta.
    apply (acts_bind _ _ (fun r => if has_prefix "x_" (to_lower (tk_text t0)) then obind (f_ext (o_annos o) (tk_text t0) r) (fun a r => Some (set_opt_annos a o, r))
               else if str_mem (to_lower (tk_text t0)) acc then f_option n (to_lower (tk_text t0)) o r else None)
      (fun o' r => Some (inl o', r))); [|intros; apply acts_ret].
    destruct (has_prefix "x_" (to_lower (tk_text t0))).
    + apply (acts_bind _ _ _ (fun a r => Some (set_opt_annos a o, r))); [apply a_ext|intros; apply acts_ret].
    + destruct (str_mem (to_lower (tk_text t0)) acc); [apply a_option|apply acts_fail].
  - apply (acts_unget t _ (fun l => Some (no_options, l))). apply acts_ret.
Qed.

(** ** What one option does *)
Definition record (w : wopt) (o : options) : options :=
  match w with
  | OMin v => set_opt_min v o | OMax v => set_opt_max v o
  | OMinsize v => set_opt_minsize v o | OMaxsize v => set_opt_maxsize v o
  | OPattern v => set_opt_pattern v o | OValues v => set_opt_values (nonempty v) o
  | ORequired => set_opt_required o | ODefault v => set_opt_default v o
  | OAction v => set_opt_action v o | OResource v => set_opt_resource v o
  | OReference v => set_opt_reference v o | OHeader v => set_opt_header v o
  | OName v => set_opt_name v o | OAnno n v => set_opt_annos (assoc_set n v (o_annos o)) o
  end.
Lemma last_of_snoc {A} (f : wopt -> option A) l w :
  last_of f (l ++ [w]) = match f w with Some a => Some a | None => last_of f l end.
Proof.
  induction l as [|x l IH]; simpl.
  - destruct (f w); reflexivity.
  - rewrite IH. destruct (f w); reflexivity.
Qed.
Lemma recorded_all os : recorded os (fold_left (fun o w => record w o) os no_options).
Proof.
  induction os as [|w os IH] using rev_ind.
  - unfold recorded, no_options; simpl. repeat split; try tauto; discriminate.
  - rewrite fold_left_app. simpl. set (o := fold_left _ os no_options) in *.
    destruct IH as (R1 & R2 & R3 & R4 & R5 & R6 & R7 & R8 & R9 & R10 & R11 & R12 & R13 & R14).
    unfold recorded. rewrite !last_of_snoc.
    assert (forall n, last_of (fun w0 => match w0 with OAnno m v => if string_dec n m then Some v else None | _ => None end) (os ++ [w])
      = match w with OAnno m v => if string_dec n m then Some v else assoc n (o_annos o) | _ => assoc n (o_annos o) end) as LA.
    { intros n. rewrite last_of_snoc, R14. destruct w; try reflexivity. destruct (string_dec n n0); reflexivity. }
    assert (o_required (record w o) = true <-> In ORequired (os ++ [w])) as RR.
    { rewrite in_app_iff. simpl. destruct w; simpl; rewrite ?R1; try (split; [tauto|]; intros [H|[H|[]]]; [exact H|discriminate]). tauto. }
    split; [exact RR|]. clear RR.
    destruct w; simpl; repeat (split; [solve [assumption|reflexivity|destruct l; reflexivity]|]);
      intros m; rewrite LA; try reflexivity.
    destruct (string_dec m n) as [-> |N]; [apply assoc_set_same|apply assoc_set_other, N].
Qed.

(** ** Soundness *)
Lemma f_one_some {A} (c : token -> option A) l a r : f_one c l = Some (a, r) -> exists t, l = t :: r /\ c t = Some a.
Proof.
  unfold f_one, case_list. destruct l as [|t l]; [discriminate|]. destruct (c t) as [b|] eqn:E; [|discriminate].
  injection 1 as <- <-. eauto.
Qed.
Lemma c_type_some {A} ty (f : token -> option A) t a : c_type ty f t = Some a -> tk_type t = ty /\ f t = Some a.
Proof. unfold c_type. destruct (is_type ty t) eqn:E; [|discriminate]. apply is_type_eq in E. auto. Qed.
Lemma f_eq_some {A} (g : list token -> option (A * list token)) l a r : f_eq g l = Some (a, r) ->
  exists e l', l = e :: l' /\ eq_tok e /\ g l' = Some (a, r).
Proof.
  unfold f_eq. intros H. apply obind_some in H as (u & l' & E & H). apply f_expect_some in E as (e & -> & E). eauto 6.
Qed.
Lemma f_text_some ty l s r : f_text ty l = Some (s, r) -> l = mkTok ty s :: r.
Proof.
  unfold f_text. intros H. apply f_one_some in H as (t & -> & H). apply c_type_some in H as (E & H). injection H as <-.
  rewrite (tok_eta _ _ E) at 1. reflexivity.
Qed.
Lemma strings_app ts l ts' l' : strings ts l -> strings ts' l' -> strings (ts ++ ts') (l ++ l').
Proof. intros H H2. induction H; simpl; [exact H2|apply strings_skip; auto|apply strings_cons; auto]. Qed.
Lemma str_loop_sound k : forall vs ts0 l m r, strings ts0 vs -> floop k str_body vs l = Some (m, r) ->
  exists ts c, l = ts ++ c :: r /\ of_type CLOSE_BRACKET c /\ strings (ts0 ++ ts) m.
Proof.
  induction k as [|k IH]; intros vs ts0 l m r H0 H; [discriminate|].
  rewrite floop_step in H. unfold str_body at 1, case_list in H. destruct l as [|t l]; [discriminate|].
  destruct (tk_type t) eqn:E; try discriminate.
  - apply (IH _ (ts0 ++ [t])) in H.
    + destruct H as (ts & c & -> & C & H). exists (t :: ts), c. rewrite <- app_assoc in H. auto.
    + apply strings_app; [exact H0|]. rewrite (tok_eta _ _ E). apply strings_cons. constructor.
  - apply (IH _ (ts0 ++ [t])) in H.
    + destruct H as (ts & c & -> & C & H). exists (t :: ts), c. rewrite <- app_assoc in H. auto.
    + rewrite <- (app_nil_r vs). apply strings_app; [exact H0|]. apply strings_skip; [left; exact E|constructor].
  - apply (IH _ (ts0 ++ [t])) in H.
    + destruct H as (ts & c & -> & C & H). exists (t :: ts), c. rewrite <- app_assoc in H. auto.
    + rewrite <- (app_nil_r vs). apply strings_app; [exact H0|]. apply strings_skip; [right; exact E|constructor].
  - injection H as <- <-. exists [], t. rewrite app_nil_r. auto.
Qed.
Lemma option_sound n acc w o l o' r : In (to_lower w) acc -> f_option n (to_lower w) o l = Some (o', r) ->
  exists ts wo, l = ts ++ r /\ opt_text X acc (word w :: ts) wo /\ o' = record wo o.
Proof.
  intros M H. unfold f_option in H.
  assert (forall kw, to_lower w =?s kw = true -> names acc w kw) as K.
  { intros kw E. apply seqb_eq in E. split; [exact E|]. rewrite <- E. exact M. }
  destruct (to_lower w =?s "min") eqn:E; [apply K in E|clear E].
  { apply obind_some in H as (v & l' & G & H). injection H as <- <-.
    apply f_eq_some in G as (e & l2 & -> & Q & G). apply f_one_some in G as (t & -> & G). apply c_type_some in G as (T & G).
    exists [e; t], (OMin v). split; [reflexivity|]. split; [|reflexivity]. rewrite (tok_eta _ _ T). constructor; auto. }
  destruct (to_lower w =?s "max") eqn:E; [apply K in E|clear E].
  { apply obind_some in H as (v & l' & G & H). injection H as <- <-.
    apply f_eq_some in G as (e & l2 & -> & Q & G). apply f_one_some in G as (t & -> & G). apply c_type_some in G as (T & G).
    exists [e; t], (OMax v). split; [reflexivity|]. split; [|reflexivity]. rewrite (tok_eta _ _ T). constructor; auto. }
  destruct (to_lower w =?s "minsize") eqn:E; [apply K in E|clear E].
  { apply obind_some in H as (v & l' & G & H). injection H as <- <-.
    apply f_eq_some in G as (e & l2 & -> & Q & G). apply f_one_some in G as (t & -> & G). apply c_type_some in G as (T & G).
    exists [e; t], (OMinsize v). split; [reflexivity|]. split; [|reflexivity]. rewrite (tok_eta _ _ T).
    constructor; auto. apply parse_int64_iff, G. }
  destruct (to_lower w =?s "maxsize") eqn:E; [apply K in E|clear E].
  { apply obind_some in H as (v & l' & G & H). injection H as <- <-.
    apply f_eq_some in G as (e & l2 & -> & Q & G). apply f_one_some in G as (t & -> & G). apply c_type_some in G as (T & G).
    exists [e; t], (OMaxsize v). split; [reflexivity|]. split; [|reflexivity]. rewrite (tok_eta _ _ T).
    constructor; auto. apply parse_int64_iff, G. }
  destruct (to_lower w =?s "pattern") eqn:E; [apply K in E|clear E].
  { apply obind_some in H as (v & l' & G & H). injection H as <- <-.
    apply f_eq_some in G as (e & l2 & -> & Q & G). apply f_text_some in G as ->.
    eexists [_; _], (OPattern v). split; [reflexivity|]. split; [|reflexivity]. constructor; auto. }
  destruct (to_lower w =?s "values") eqn:E; [apply K in E|clear E].
  { apply obind_some in H as (v & l' & G & H). injection H as <- <-.
    unfold f_strings in G. apply obind_some in G as (u & l2 & G1 & G). apply f_expect_some in G1 as (e & -> & Q).
    apply obind_some in G as (u2 & l3 & G1 & G). apply f_expect_some in G1 as (b & -> & B).
    apply obind_some in G as (vs & l4 & G1 & G). injection G as <- <-.
    apply (str_loop_sound _ _ [] _ _ _ strings_nil) in G1 as (ts & c & -> & C & S).
    exists (e :: b :: ts ++ [c]), (OValues vs). split; [simpl; rewrite <- app_assoc; reflexivity|]. split; [|reflexivity].
    apply ot_values; auto. }
  destruct (to_lower w =?s "required") eqn:E; [apply K in E|clear E].
  { injection H as <- <-. exists [], ORequired. split; [reflexivity|]. split; [|reflexivity]. constructor. exact E. }
  destruct (to_lower w =?s "default") eqn:E; [apply K in E|clear E].
  { apply obind_some in H as (v & l' & G & H). injection H as <- <-.
    apply f_eq_some in G as (e & l2 & -> & Q & G). unfold case_list in G. destruct l2 as [|t l2]; [discriminate|].
    apply literal_sound in G as (ts & -> & L). exists (e :: t :: ts), (ODefault v).
    split; [reflexivity|]. split; [|reflexivity]. apply ot_default; auto. }
  destruct ((to_lower w =?s "action") || (to_lower w =?s "operation")) eqn:E; [|clear E].
  { assert (names acc w "action" \/ names acc w "operation") as E'
      by (apply orb_true_iff in E as [E|E]; apply K in E; auto).
    apply obind_some in H as (v & l' & G & H). injection H as <- <-.
    apply f_eq_some in G as (e & l2 & -> & Q & G). apply f_text_some in G as ->.
    eexists [_; _], (OAction v). split; [reflexivity|]. split; [|reflexivity]. apply ot_action; auto. }
  destruct (to_lower w =?s "resource") eqn:E; [apply K in E|clear E].
  { apply obind_some in H as (v & l' & G & H). injection H as <- <-.
    apply f_eq_some in G as (e & l2 & -> & Q & G). apply f_text_some in G as ->.
    eexists [_; _], (OResource v). split; [reflexivity|]. split; [|reflexivity]. apply ot_resource; auto. }
  destruct (to_lower w =?s "reference") eqn:E; [apply K in E|clear E].
  { apply obind_some in H as (v & l' & G & H). injection H as <- <-.
    apply f_eq_some in G as (e & l2 & -> & Q & G). apply f_text_some in G as ->.
    eexists [_; _], (OReference v). split; [reflexivity|]. split; [|reflexivity]. apply ot_reference; auto. }
  destruct (to_lower w =?s "header") eqn:E; [apply K in E|clear E].
  { apply obind_some in H as (v & l' & G & H). injection H as <- <-.
    apply f_eq_some in G as (e & l2 & -> & Q & G). apply f_text_some in G as ->.
    eexists [_; _], (OHeader v). split; [reflexivity|]. split; [|reflexivity]. apply ot_header; auto. }
  destruct (to_lower w =?s "name") eqn:E; [apply K in E|discriminate].
  apply obind_some in H as (v & l' & G & H). injection H as <- <-.
  apply f_eq_some in G as (e & l2 & -> & Q & G). apply f_text_some in G as ->.
  eexists [_; _], (OName v). split; [reflexivity|]. split; [|reflexivity]. apply ot_name; auto.
Qed.
Lemma opt_items_app acc ts l ts' l' : opt_items X acc ts l -> opt_items X acc ts' l' -> opt_items X acc (ts ++ ts') (l ++ l').
Proof.
  induction 1; simpl; auto; intros; rewrite <- ?app_assoc; [apply oi_comma|apply oi_cons]; auto.
Qed.
Lemma opt_items_one acc ts o : opt_text X acc ts o -> opt_items X acc ts [o].
Proof. intros H. rewrite <- (app_nil_r ts). apply oi_cons; [exact H|constructor]. Qed.
Lemma opts_loop_sound n acc k : forall os ts0 l o r, opt_items X acc ts0 os ->
  floop k (opts_body n acc) (fold_left (fun o w => record w o) os no_options) l = Some (o, r) ->
  exists ts c os', l = ts ++ c :: r /\ of_type CLOSE_PAREN c /\ opt_items X acc (ts0 ++ ts) os'
    /\ o = fold_left (fun o w => record w o) os' no_options.
Proof.
  induction k as [|k IH]; intros os ts0 l o r H0 H; [discriminate|].
  rewrite floop_step in H. unfold opts_body at 1, case_list in H. destruct l as [|t l]; [discriminate|].
  assert (forall ts wo l', l = ts ++ l' -> opt_text X acc (t :: ts) wo ->
    floop k (opts_body n acc) (record wo (fold_left (fun o w => record w o) os no_options)) l' = Some (o, r) ->
    exists ts c os', t :: l = ts ++ c :: r /\ of_type CLOSE_PAREN c /\ opt_items X acc (ts0 ++ ts) os'
      /\ o = fold_left (fun o w => record w o) os' no_options) as W.
  { intros ts wo l' -> T H1.
    change (record wo (fold_left (fun o w => record w o) os no_options))
      with (fold_left (fun o w => record w o) [wo] (fold_left (fun o w => record w o) os no_options)) in H1.
    rewrite <- fold_left_app in H1. apply (IH _ (ts0 ++ t :: ts)) in H1.
    - destruct H1 as (ts2 & c & os' & -> & C & I & ->). exists (t :: ts ++ ts2), c, os'.
      split; [simpl; rewrite <- app_assoc; reflexivity|]. split; [exact C|]. rewrite <- app_assoc in I. auto.
    - apply opt_items_app; [exact H0|]. apply opt_items_one, T. }
  destruct (tk_type t) eqn:E; try discriminate.
  - cbv zeta in H. destruct (has_prefix "x_" (to_lower (tk_text t))) eqn:P.
    + destruct (f_ext (o_annos _) (tk_text t) l) as [[a l']|] eqn:F in H; [|discriminate]. simpl in H.
      unfold f_ext, case_list in F. destruct l as [|t1 l]; [discriminate|].
      destruct (is_type EQUALS t1) eqn:Q.
      * apply obind_some in F as (v & l2 & F & G). apply f_text_some in F as ->. injection G as <- <-.
        apply (W [t1; mkTok STRING v] (OAnno (tk_text t) v) l2); [reflexivity| |exact H].
        rewrite (tok_eta _ _ E). apply ot_anno; [exact P|]. apply is_type_eq, Q.
      * injection F as <- <-. apply (W [] (OAnno (tk_text t) "") (t1 :: l)); [reflexivity| |exact H].
        rewrite (tok_eta _ _ E). apply ot_flag. exact P.
    + destruct (str_mem (to_lower (tk_text t)) acc) eqn:M; [|discriminate]. apply str_mem_In in M.
      destruct (f_option n (to_lower (tk_text t)) _ l) as [[o1 l']|] eqn:F in H; [|discriminate]. simpl in H.
      apply (option_sound n acc) in F as (ts & wo & -> & T & ->); [|exact M].
      apply (W ts wo l'); [reflexivity| |exact H]. rewrite (tok_eta _ _ E). exact T.
  - apply (IH _ (ts0 ++ [t])) in H.
    + destruct H as (ts & c & os' & -> & C & I & ->). exists (t :: ts), c, os'. rewrite <- app_assoc in I. auto.
    + rewrite <- (app_nil_r os). apply opt_items_app; [exact H0|]. apply oi_comma; [exact E|constructor].
  - injection H as <- <-. exists [], t, os. rewrite app_nil_r. auto.
Qed.
Lemma options_sound n acc l o r : f_options n acc l = Some (o, r) ->
  exists os, opt_part X acc l os r /\ o = fold_left (fun o w => record w o) os no_options.
Proof.
  unfold f_options, case_list. destruct l as [|t l].
  - injection 1 as <- <-. exists []. split; [|reflexivity]. apply op_none. discriminate.
  - destruct (is_type OPEN_PAREN t) eqn:E.
    + intros H. apply (opts_loop_sound n acc n [] []) in H; [|constructor].
      destruct H as (ts & c & os & -> & C & I & ->). exists os. split; [|reflexivity].
      apply op_list; auto. apply is_type_eq, E.
    + injection 1 as <- <-. exists []. split; [|reflexivity]. apply op_none. intros t0 r0 E0. injection E0 as <- <-.
      apply is_type_neq, E.
Qed.

(** ** Completeness *)
Lemma str_loop_complete ts l : strings ts l -> forall k vs c r, of_type CLOSE_BRACKET c -> length ts < k ->
  floop k str_body vs (ts ++ c :: r) = Some (vs ++ l, r).
Proof.
  induction 1 as [|t ts l B H IH|s ts l H IH]; intros k vs c r C Hk; (destruct k as [|k]; [simpl in Hk; lia|]);
    rewrite floop_step; simpl; simpl in Hk.
  - rewrite C, app_nil_r. reflexivity.
  - destruct B as [B|B]; rewrite B; apply IH; auto; lia.
  - rewrite IH; [rewrite <- app_assoc; reflexivity|exact C|lia].
Qed.
Lemma f_eq_tok {A} (g : list token -> option (A * list token)) e l : eq_tok e -> f_eq g (e :: l) = g l.
Proof.
  intros E. unfold f_eq, f_expect, f_one, c_type. simpl. apply is_type_eq in E. rewrite E. reflexivity.
Qed.
Lemma f_expect_tok ty t l : tk_type t = ty -> f_expect ty (t :: l) = Some (tt, l).
Proof. intros E. unfold f_expect, f_one, c_type. simpl. apply is_type_eq in E. rewrite E. reflexivity. Qed.
Lemma f_text_tok ty s l : f_text ty (mkTok ty s :: l) = Some (s, l).
Proof. unfold f_text, f_one, c_type. simpl. unfold is_type. simpl. rewrite teqb_refl. reflexivity. Qed.
Ltac kw E := rewrite E; cbn [String.eqb Ascii.eqb Bool.eqb orb].
Lemma option_complete n acc w ts wo o r : opt_text X acc (word w :: ts) wo -> has_prefix "x_" (to_lower w) = false ->
  length ts <= n -> f_option n (to_lower w) o (ts ++ r) = Some (record wo o, r) /\ In (to_lower w) acc.
Proof.
  intros T P Hn. unfold f_option.
  inversion T as [w0 e raw d (N1 & N2) Q D|w0 e raw d (N1 & N2) Q D|w0 e raw d (N1 & N2) Q D|w0 e raw d (N1 & N2) Q D
    |w0 e s (N1 & N2) Q|w0 e b c ts0 l (N1 & N2) Q B C S|w0 (N1 & N2)|w0 e ts0 v (N1 & N2) Q L
    |w0 e s N Q|w0 e s (N1 & N2) Q|w0 e s (N1 & N2) Q|w0 e s (N1 & N2) Q|w0 e s (N1 & N2) Q|w0 F|w0 e s F Q]; subst;
    try congruence; try (rewrite N1); simpl.
  - rewrite f_eq_tok by exact Q. unfold f_one, c_type. simpl. rewrite D. split; [reflexivity|congruence].
  - rewrite f_eq_tok by exact Q. unfold f_one, c_type. simpl. rewrite D. split; [reflexivity|congruence].
  - rewrite f_eq_tok by exact Q. unfold f_one, c_type. cbn [case_list is_type tk_type tk_text teqb]. apply parse_int64_iff in D.
    change (is_type NUMBER (mkTok NUMBER raw)) with true. cbv iota. rewrite D. split; [reflexivity|congruence].
  - rewrite f_eq_tok by exact Q. unfold f_one, c_type. cbn [case_list is_type tk_type tk_text teqb]. apply parse_int64_iff in D.
    change (is_type NUMBER (mkTok NUMBER raw)) with true. cbv iota. rewrite D. split; [reflexivity|congruence].
  - rewrite f_eq_tok by exact Q. rewrite f_text_tok. split; [reflexivity|congruence].
  - unfold f_strings. rewrite (f_expect_tok EQUALS) by exact Q. cbn [obind]. rewrite (f_expect_tok OPEN_BRACKET) by exact B.
    cbn [obind]. rewrite <- app_assoc. cbn [app]. simpl in Hn. rewrite app_length in Hn. simpl in Hn.
    rewrite (str_loop_complete _ _ S) by (auto; lia). split; [reflexivity|congruence].
  - split; [reflexivity|congruence].
  - rewrite f_eq_tok by exact Q. destruct (literal_first _ _ _ L) as (t & ts1 & -> & _). simpl. simpl in Hn.
    rewrite (literal_exact X n t ts1 v) by (auto; lia). split; [reflexivity|congruence].
  - destruct N as [(N1 & N2)|(N1 & N2)]; rewrite N1; simpl; rewrite f_eq_tok by exact Q; rewrite f_text_tok;
      (split; [reflexivity|congruence]).
  - rewrite f_eq_tok by exact Q. rewrite f_text_tok. split; [reflexivity|congruence].
  - rewrite f_eq_tok by exact Q. rewrite f_text_tok. split; [reflexivity|congruence].
  - rewrite f_eq_tok by exact Q. rewrite f_text_tok. split; [reflexivity|congruence].
  - rewrite f_eq_tok by exact Q. rewrite f_text_tok. split; [reflexivity|congruence].
Qed.
Lemma opt_text_first acc ts wo : opt_text X acc ts wo -> exists w r, ts = word w :: r.
Proof. inversion 1; eauto. Qed.
Lemma opt_items_first acc ts os : opt_items X acc ts os -> ts = [] \/ exists t r, ts = t :: r /\ tk_type t <> EQUALS.
Proof.
  inversion 1 as [|t ts' l C H'|a o ts' l T H']; subst; [auto|right; exists t, ts'; split; [reflexivity|]; unfold of_type in C; congruence|].
  destruct (opt_text_first _ _ _ T) as (w & r & ->). right. exists (word w), (r ++ ts'). split; [reflexivity|discriminate].
Qed.
Local Arguments has_prefix : simpl never.
Local Arguments str_mem : simpl never.
Local Arguments to_lower : simpl never.
Lemma opts_loop_complete n acc ts os : opt_items X acc ts os -> forall k o c r, of_type CLOSE_PAREN c ->
  length ts < k -> length ts <= n ->
  floop k (opts_body n acc) o (ts ++ c :: r) = Some (fold_left (fun o w => record w o) os o, r).
Proof.
  induction 1 as [|t ts l C0 H IH|a wo ts l T H IH]; intros k o c r C Hk Hn; (destruct k as [|k]; [simpl in Hk; lia|]);
    rewrite floop_step.
  - simpl. rewrite C. reflexivity.
  - simpl. rewrite C0. simpl in Hk, Hn. apply IH; auto; lia.
  - destruct (opt_text_first _ _ _ T) as (w & a' & ->). simpl. simpl in Hk, Hn. rewrite app_length in Hk, Hn.
    rewrite <- app_assoc.
    destruct (has_prefix "x_" (to_lower w)) eqn:P.
    + assert ((a' = [] /\ wo = OAnno w "") \/ (exists e s, eq_tok e /\ a' = [e; mkTok STRING s] /\ wo = OAnno w s)) as [(-> & ->)|(e & s & Q & -> & ->)].
      { inversion T as [w0 e raw d (N1 & N2) Q D|w0 e raw d (N1 & N2) Q D|w0 e raw d (N1 & N2) Q D|w0 e raw d (N1 & N2) Q D
        |w0 e s (N1 & N2) Q|w0 e b c0 ts0 l0 (N1 & N2) Q B C1 S|w0 (N1 & N2)|w0 e ts0 v (N1 & N2) Q L
        |w0 e s N Q|w0 e s (N1 & N2) Q|w0 e s (N1 & N2) Q|w0 e s (N1 & N2) Q|w0 e s (N1 & N2) Q|w0 F|w0 e s F Q]; subst;
        try (rewrite N1 in P; discriminate); try (destruct N as [(N1 & N2)|(N1 & N2)]; rewrite N1 in P; discriminate); eauto 6. }
      * simpl. assert (exists t1 r1, ts ++ c :: r = t1 :: r1 /\ tk_type t1 <> EQUALS) as (t1 & r1 & E1 & N1).
        { destruct (opt_items_first _ _ _ H) as [-> |(t1 & r1 & -> & N1)].
          - exists c, r. split; [reflexivity|]. unfold of_type in C. congruence.
          - exists t1, (r1 ++ c :: r). split; [reflexivity|exact N1]. }
        rewrite E1. unfold f_ext. simpl. apply is_type_neq in N1. rewrite N1. simpl. rewrite <- E1.
        rewrite IH; [reflexivity|exact C|simpl in *; lia|simpl in *; lia].
      * simpl. unfold f_ext. simpl. apply is_type_eq in Q. rewrite Q. simpl.
        rewrite IH; [reflexivity|exact C|simpl in *; lia|simpl in *; lia].
    + destruct (option_complete n acc w a' wo o (ts ++ c :: r) T P) as (E & M); [lia|].
      apply str_mem_In in M. rewrite M, E. simpl. apply IH; auto; lia.
Qed.
Lemma options_complete n acc l os r : opt_part X acc l os r -> length l <= n ->
  f_options n acc l = Some (fold_left (fun o w => record w o) os no_options, r).
Proof.
  intros H Hn. unfold f_options. destruct H as [l H|b c ts os r B C I].
  - destruct l as [|t l]; [reflexivity|]. simpl. destruct (is_type OPEN_PAREN t) eqn:E; [|reflexivity].
    apply is_type_eq in E. destruct (H t l eq_refl E).
  - simpl in *. apply is_type_eq in B. rewrite B. rewrite app_length in Hn. simpl in Hn.
    apply opts_loop_complete; auto; lia.
Qed.
End O.
