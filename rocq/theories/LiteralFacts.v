(** parse_literal against its grammar. *)
From Verif Require Import GoStr Outcome Value Schema Scalars Model Misc ParserValidate Scan ScanFacts Parser Acts SpecText InlineFacts.

Lemma is_type_eq ty t : is_type ty t = true <-> tk_type t = ty.
Proof. unfold is_type. apply teqb_eq. Qed.
Lemma is_type_neq ty t : is_type ty t = false <-> tk_type t <> ty.
Proof. unfold is_type. apply teqb_neq. Qed.
Lemma tok_eta t ty : tk_type t = ty -> t = mkTok ty (tk_text t).
Proof. destruct t. simpl. congruence. Qed.

(** ** The small readers *)
Definition f_one {A} (c : token -> option A) : list token -> option (A * list token) :=
  case_list None (fun t r => match c t with Some a => Some (a, r) | None => None end).
Definition c_type {A} ty (f : token -> option A) (t : token) : option A := if is_type ty t then f t else None.
Definition f_expect ty := f_one (c_type ty (fun _ => Some tt)).
Definition f_text ty := f_one (c_type ty (fun t => Some (tk_text t))).
Lemma a_expect ty : acts (expect ty) (f_expect ty).
Proof.
  unfold expect, f_expect, f_one, c_type. apply acts_get; [|apply acts_fail].
  intros t. apply acts_any. destruct (is_type ty t); [apply acts_ret|apply acts_fail].
Qed.
Lemma a_identifier : acts expect_identifier (f_text SYMBOL).
Proof.
  unfold expect_identifier, assert_identifier, f_text, f_one, c_type. apply acts_get; [|apply acts_fail].
  intros t. apply acts_any. destruct (is_type SYMBOL t); [apply acts_ret|apply acts_fail].
Qed.
Lemma a_string : acts expect_string (f_text STRING).
Proof.
  unfold expect_string, f_text, f_one, c_type. apply acts_get; [|apply acts_fail].
  intros t. apply acts_any. destruct (is_type STRING t); [apply acts_ret|apply acts_fail].
Qed.
Lemma a_int b : acts (expect_int b) (f_one (c_type NUMBER (fun t => parse_int b (tk_text t)))).
Proof.
  unfold expect_int, f_one, c_type. apply acts_get; [|apply acts_fail].
  intros t. apply acts_any. destruct (is_type NUMBER t); [|apply acts_fail].
  destruct (parse_int b (tk_text t)); [apply acts_ret|apply acts_fail].
Qed.
Lemma a_number X : acts (expect_number X) (f_one (c_type NUMBER (fun t => x_decimal X (tk_text t)))).
Proof.
  unfold expect_number, f_one, c_type. apply acts_get; [|apply acts_fail].
  intros t. apply acts_any. destruct (is_type NUMBER t); [|apply acts_fail].
  destruct (x_decimal X (tk_text t)); [apply acts_ret|apply acts_fail].
Qed.

(** ** Literals *)
Section L.
Variable X : ext.
Definition f_symbol (s : string) : option value :=
  if s =?s "true" then Some (VBool true) else if s =?s "false" then Some (VBool false)
  else if s =?s "null" then Some VNil else None.
Definition give {A} (o : option A) (l : list token) : option (A * list token) :=
  match o with Some a => Some (a, l) | None => None end.
Definition arr_body (lit : token -> list token -> option (value * list token)) (vs : list value)
  : list token -> option ((list value + list value) * list token) :=
  case_list None (fun tok r =>
    match tk_type tok with
    | NEWLINE | COMMA => Some (inl vs, r)
    | CLOSE_BRACKET => Some (inr vs, r)
    | _ => obind (lit tok r) (fun v l => Some (inl (vs ++ [v]), l))
    end).
Definition obj_body (lit : token -> list token -> option (value * list token)) (m : list (string * value))
  : list token -> option ((list (string * value) + list (string * value)) * list token) :=
  case_list None (fun tok r =>
    match tk_type tok with
    | CLOSE_BRACE => Some (inr m, r)
    | STRING =>
        obind (give (unquote (tk_text tok)) r) (fun k r =>
        obind (f_expect COLON r) (fun _ r =>
        obind (case_list None (fun t r => lit t r) r) (fun v r =>
        Some (inl (assoc_set k v m), r))))
    | SYMBOL => None
    | _ => Some (inl m, r)
    end).
Fixpoint f_literal (fuel : nat) (tok : token) (l : list token) : option (value * list token) :=
  match fuel with
  | O => None
  | S f =>
      match tk_type tok with
      | SYMBOL => give (f_symbol (tk_text tok)) l
      | STRING => obind (give (unquote (tk_text tok)) l) (fun s l => Some (VPStr s, l))
      | NUMBER => obind (give (x_decimal X (tk_text tok)) l) (fun d l => Some (VDec d, l))
      | OPEN_BRACKET => obind (floop f (arr_body (f_literal f)) [] l) (fun vs l => Some (VArr vs, l))
      | OPEN_BRACE => obind (floop f (obj_body (f_literal f)) [] l) (fun m l => Some (VMap m, l))
      | _ => None
      end
  end.
Lemma a_lit_string s : acts (parse_literal_string s) (give (unquote s)).
Proof. unfold parse_literal_string, give. destruct (unquote s); [apply acts_ret|apply acts_fail]. Qed.
Lemma a_literal n : forall t, acts (parse_literal X n t) (f_literal n t).
Proof.
  induction n as [|n IH]; intros t; cbn [parse_literal f_literal]; [apply acts_spin|].
  destruct (tk_type t); try apply acts_fail.
  - unfold parse_literal_symbol, f_symbol, give.
    repeat match goal with |- context [if ?b then _ else _] => destruct b end; first [apply acts_ret|apply acts_fail].
  - unfold parse_literal_number, give, obind. destruct (x_decimal X (tk_text t)); [apply acts_ret|apply acts_fail].
  - apply (acts_bind _ _ _ (fun s l => Some (VPStr s, l))); [apply a_lit_string|intros a; apply acts_ret].
  - apply (acts_bind _ _ _ (fun s l => Some (VMap s, l))); [|intros a; apply acts_ret].
    apply acts_loop. intros m. apply acts_get; [|apply acts_fail].
    intros t0. apply acts_any. destruct (tk_type t0); try apply acts_ret; try apply acts_fail.
    apply acts_bind; [apply a_lit_string|]. intros k.
    apply (acts_bind _ _ _ (fun _ r => obind (case_list None (fun t r => f_literal n t r) r)
       (fun v r => Some (inl (assoc_set k v m), r)))); [apply a_expect|]. intros _.
    apply (acts_bind _ _ _ (fun v r => Some (inl (assoc_set k v m), r))); [|intros a; apply acts_ret].
    apply acts_get; [intros t1; apply acts_any, IH|apply acts_fail].
  - apply (acts_bind _ _ _ (fun s l => Some (VArr s, l))); [|intros a; apply acts_ret].
    apply acts_loop. intros vs. apply acts_get; [|apply acts_fail].
    intros t0. apply acts_any. destruct (tk_type t0); try apply acts_ret;
      (apply (acts_bind _ _ _ (fun v l => Some (inl (vs ++ [v]), l))); [apply IH|intros a; apply acts_ret]).
Qed.

(** *** what is accepted is in the grammar *)
Lemma give_some {A} (o : option A) l a r : give o l = Some (a, r) -> o = Some a /\ r = l.
Proof. unfold give. destruct o; [|discriminate]. injection 1 as -> ->. auto. Qed.
Lemma obind_some {A B} (o : option (A * list token)) (g : A -> list token -> option (B * list token)) b r :
  obind o g = Some (b, r) -> exists a l, o = Some (a, l) /\ g a l = Some (b, r).
Proof. unfold obind. destruct o as [[a l]|]; [eauto|discriminate]. Qed.
Lemma f_expect_some ty l a r : f_expect ty l = Some (a, r) -> exists t, l = t :: r /\ tk_type t = ty.
Proof.
  unfold f_expect, f_one, c_type, case_list. destruct l as [|t l]; [discriminate|].
  destruct (is_type ty t) eqn:E; [|discriminate]. injection 1 as _ <-. apply is_type_eq in E. eauto.
Qed.
Lemma assigned_snoc {A} (l : list (string * A)) k v : assigned (l ++ [(k, v)]) = assoc_set k v (assigned l).
Proof. unfold assigned. rewrite fold_left_app. reflexivity. Qed.
Lemma items_snoc ts l t v : items X ts l -> literal X t v -> items X (ts ++ t) (l ++ [v]).
Proof.
  induction 1 as [|t0 ts l S H IH|a v0 ts l Ha H IH]; intros HL; simpl.
  - rewrite <- (app_nil_r t). apply items_cons; [exact HL|constructor].
  - apply items_skip; auto.
  - rewrite <- app_assoc. apply items_cons; auto.
Qed.
Lemma items_skip_end ts l t : items X ts l -> of_type NEWLINE t \/ of_type COMMA t -> items X (ts ++ [t]) l.
Proof.
  induction 1 as [|t0 ts l S H IH|a v0 ts l Ha H IH]; intros HL; simpl.
  - apply items_skip; [exact HL|constructor].
  - apply items_skip; auto.
  - rewrite <- app_assoc. apply items_cons; auto.
Qed.
Lemma entries_snoc ts l raw k c t v : entries X ts l -> unquote raw = Some k -> of_type COLON c -> literal X t v ->
  entries X (ts ++ mkTok STRING raw :: c :: t) (l ++ [(k, v)]).
Proof.
  intros H U C L. induction H as [|t0 ts l S1 S2 S3 H IH|raw0 k0 c0 a v0 ts l U0 C0 Ha H IH]; simpl.
  - rewrite <- (app_nil_r t). apply entries_cons; auto. constructor.
  - apply entries_skip; auto.
  - rewrite <- app_assoc. apply entries_cons; auto.
Qed.
Lemma entries_skip_end ts l t : entries X ts l -> ~ of_type STRING t -> ~ of_type SYMBOL t -> ~ of_type CLOSE_BRACE t ->
  entries X (ts ++ [t]) l.
Proof.
  intros H A B C. induction H as [|t0 ts l S1 S2 S3 H IH|raw0 k0 c0 a v0 ts l U0 C0 Ha H IH]; simpl.
  - apply entries_skip; auto. constructor.
  - apply entries_skip; auto.
  - rewrite <- app_assoc. apply entries_cons; auto.
Qed.
Lemma literal_sound n : forall t l v r, f_literal n t l = Some (v, r) ->
  exists ts, l = ts ++ r /\ literal X (t :: ts) v.
Proof.
  induction n as [|n IH]; intros t l v r H; cbn [f_literal] in H; [discriminate|].
  destruct (tk_type t) eqn:E; try discriminate.
  - apply give_some in H as (H & ->). exists []. split; [reflexivity|]. rewrite (tok_eta _ _ E).
    unfold f_symbol in H.
    destruct (tk_text t =?s "true") eqn:E1; [apply seqb_eq in E1; rewrite E1; injection H as <-; constructor|].
    destruct (tk_text t =?s "false") eqn:E2; [apply seqb_eq in E2; rewrite E2; injection H as <-; constructor|].
    destruct (tk_text t =?s "null") eqn:E3; [apply seqb_eq in E3; rewrite E3; injection H as <-; constructor|discriminate].
  - apply obind_some in H as (d & l' & G & H). apply give_some in G as (G & ->). injection H as <- <-.
    exists []. split; [reflexivity|]. rewrite (tok_eta _ _ E). constructor. exact G.
  - apply obind_some in H as (d & l' & G & H). apply give_some in G as (G & ->). injection H as <- <-.
    exists []. split; [reflexivity|]. rewrite (tok_eta _ _ E). constructor. exact G.
  - apply obind_some in H as (m & l' & G & H). injection H as <- <-.
    set (f := obj_body (f_literal n)) in G.
    enough (forall k kvs ts0 l m r, entries X ts0 kvs -> floop k f (assigned kvs) l = Some (m, r) ->
      exists ts kvs' c, l = ts ++ c :: r /\ m = assigned kvs' /\ of_type CLOSE_BRACE c /\ entries X (ts0 ++ ts) kvs') as W.
    { destruct (W n [] [] l m l' (entries_nil X) G) as (ts & kvs & c & -> & -> & C & H).
      exists (ts ++ [c]). rewrite <- app_assoc. split; [reflexivity|]. apply lit_object; auto. }
    clear G l m l'. induction k as [|k IHk]; intros kvs ts0 l m r H0 H; [discriminate|].
    rewrite floop_step in H. unfold f at 1, obj_body, case_list in H. destruct l as [|t0 l]; [discriminate|].
    destruct (tk_type t0) eqn:E0; try discriminate;
      try (apply (IHk kvs (ts0 ++ [t0])) in H as (ts & kvs' & c & -> & -> & C & H);
           [exists (t0 :: ts), kvs', c; rewrite <- app_assoc in H; auto
           |apply entries_skip_end; unfold of_type; congruence || exact H0]).
    + destruct (unquote (tk_text t0)) as [k0|] eqn:U; [|discriminate]. simpl in H.
      destruct (f_expect COLON l) as [[u l1]|] eqn:F; [|discriminate]. simpl in H.
      apply f_expect_some in F as (c0 & -> & C0).
      destruct l1 as [|t1 l1]; [discriminate|]. simpl in H.
      destruct (f_literal n t1 l1) as [[v1 r1]|] eqn:L; [|discriminate]. simpl in H.
      apply IH in L as (ts1 & -> & L).
      rewrite <- assigned_snoc in H.
      apply (IHk _ (ts0 ++ t0 :: c0 :: t1 :: ts1)) in H.
      2: { rewrite (tok_eta _ _ E0). apply entries_snoc; auto. }
      destruct H as (ts & kvs' & c & -> & -> & C & H).
      exists (t0 :: c0 :: t1 :: ts1 ++ ts), kvs', c.
      split; [simpl; rewrite <- app_assoc; reflexivity|]. split; [reflexivity|]. split; [exact C|].
      rewrite <- app_assoc in H. exact H.
    + injection H as <- <-. exists [], kvs, t0. rewrite app_nil_r. auto.
  - apply obind_some in H as (m & l' & G & H). injection H as <- <-.
    set (f := arr_body (f_literal n)) in G.
    enough (forall k vs ts0 l m r, items X ts0 vs -> floop k f vs l = Some (m, r) ->
      exists ts c, l = ts ++ c :: r /\ of_type CLOSE_BRACKET c /\ items X (ts0 ++ ts) m) as W.
    { destruct (W n [] [] l m l' (items_nil X) G) as (ts & c & -> & C & H).
      exists (ts ++ [c]). rewrite <- app_assoc. split; [reflexivity|]. apply lit_array; auto. }
    clear G l m l'. induction k as [|k IHk]; intros vs ts0 l m r H0 H; [discriminate|].
    rewrite floop_step in H. unfold f at 1, arr_body, case_list in H. destruct l as [|t0 l]; [discriminate|].
    assert (match obind (f_literal n t0 l) (fun v l0 => Some (inl (vs ++ [v]) : list value + list value, l0)) with
         | Some (inl s', l') => floop k f s' l' | Some (inr a, l') => Some (a, l') | None => None end = Some (m, r) ->
         exists ts c, t0 :: l = ts ++ c :: r /\ of_type CLOSE_BRACKET c /\ items X (ts0 ++ ts) m) as W.
    { destruct (f_literal n t0 l) as [[v1 r1]|] eqn:L; [|discriminate]. simpl. intros H1.
      apply IH in L as (ts1 & -> & L). apply (IHk _ (ts0 ++ t0 :: ts1)) in H1; [|apply items_snoc; auto].
      destruct H1 as (ts & c & -> & C & H1). exists (t0 :: ts1 ++ ts), c.
      split; [simpl; rewrite <- app_assoc; reflexivity|]. split; [exact C|]. rewrite <- app_assoc in H1. exact H1. }
    destruct (tk_type t0) eqn:E0; try (exact (W H));
      try (apply (IHk vs (ts0 ++ [t0])) in H as (ts & c & -> & C & H);
           [exists (t0 :: ts), c; rewrite <- app_assoc in H; auto
           |apply items_skip_end; unfold of_type; auto]).
    injection H as <- <-. exists [], t0. rewrite app_nil_r. auto.
Qed.

(** *** the grammar is accepted *)
Scheme literal_mut := Induction for literal Sort Prop
  with items_mut := Induction for items Sort Prop
  with entries_mut := Induction for entries Sort Prop.
Combined Scheme grammar_mut from literal_mut, items_mut, entries_mut.
Lemma literal_first toks v : literal X toks v -> exists t ts, toks = t :: ts /\
  In (tk_type t) [SYMBOL; STRING; NUMBER; OPEN_BRACKET; OPEN_BRACE].
Proof.
  inversion 1; subst; try (eexists _, []; split; [reflexivity|simpl; tauto]);
    unfold of_type in *; (eexists _, _; split; [reflexivity|]);
    match goal with H : tk_type _ = _ |- _ => rewrite H; simpl; tauto end.
Qed.
Lemma literal_complete :
  (forall toks v, literal X toks v -> forall t ts n r, toks = t :: ts -> length ts < n ->
     f_literal n t (ts ++ r) = Some (v, r))
  /\ (forall ts l, items X ts l -> forall n k vs c r, of_type CLOSE_BRACKET c -> length ts < k -> length ts <= n ->
     floop k (arr_body (f_literal n)) vs (ts ++ c :: r) = Some (vs ++ l, r))
  /\ (forall ts l, entries X ts l -> forall n k kvs c r, of_type CLOSE_BRACE c -> length ts < k -> length ts <= n ->
     floop k (obj_body (f_literal n)) (assigned kvs) (ts ++ c :: r) = Some (assigned (kvs ++ l), r)).
Proof.
  apply (grammar_mut X (fun toks v _ => forall t ts n r, toks = t :: ts -> length ts < n ->
     f_literal n t (ts ++ r) = Some (v, r))
   (fun ts l _ => forall n k vs c r, of_type CLOSE_BRACKET c -> length ts < k -> length ts <= n ->
     floop k (arr_body (f_literal n)) vs (ts ++ c :: r) = Some (vs ++ l, r))
   (fun ts l _ => forall n k kvs c r, of_type CLOSE_BRACE c -> length ts < k -> length ts <= n ->
     floop k (obj_body (f_literal n)) (assigned kvs) (ts ++ c :: r) = Some (assigned (kvs ++ l), r)));
  unfold of_type.
  1-5: intros; match goal with H : _ :: _ = _ :: _ |- _ => injection H as <- <- end;
    destruct n as [|n]; [simpl in *; lia|]; cbn [f_literal tk_type tk_text app];
    try (unfold give; match goal with H : _ = Some _ |- _ => rewrite H end); reflexivity.
  - intros o c ts l O C _ IH t ts' n r E Hn. injection E as <- <-.
    destruct n as [|n]; [lia|]. cbn [f_literal]. rewrite O. rewrite <- app_assoc. simpl.
    rewrite app_length in Hn. simpl in Hn. rewrite IH; [reflexivity|exact C|lia|lia].
  - intros o c ts l O C _ IH t ts' n r E Hn. injection E as <- <-.
    destruct n as [|n]; [lia|]. cbn [f_literal]. rewrite O. rewrite <- app_assoc. simpl.
    rewrite app_length in Hn. simpl in Hn. change (@nil (string * value)) with (@assigned value []).
    rewrite IH; [reflexivity|exact C|lia|lia].
  - intros n k vs c r C Hk _. destruct k as [|k]; [simpl in Hk; lia|].
    cbn [floop app arr_body case_list]. rewrite C, app_nil_r. reflexivity.
  - intros t ts l S _ IH n k vs c r C Hk Hn. simpl in Hk, Hn. destruct k as [|k]; [lia|].
    rewrite floop_step. simpl. destruct S as [-> | ->]; apply IH; auto; lia.
  - intros a v ts l La IHa _ IH n k vs c r C Hk Hn. destruct (literal_first _ _ La) as (t & ta & -> & F).
    destruct k as [|k]; [simpl in Hk; lia|]. rewrite app_length in Hk, Hn. simpl in Hk, Hn.
    rewrite floop_step. simpl. rewrite <- app_assoc.
    rewrite (IHa t ta n _ eq_refl) by lia.
    simpl in F. destruct F as [<- |[<- |[<- |[<- |[<- |[]]]]]]; simpl;
      (rewrite IH; [rewrite <- app_assoc; reflexivity|exact C|lia|lia]).
  - intros n k kvs c r C Hk _. destruct k as [|k]; [simpl in Hk; lia|].
    cbn [floop app obj_body case_list]. rewrite C, app_nil_r. reflexivity.
  - intros t ts l S1 S2 S3 _ IH n k kvs c r C Hk Hn. simpl in Hk, Hn. destruct k as [|k]; [lia|].
    rewrite floop_step. simpl. destruct (tk_type t) eqn:E; try congruence; apply IH; auto; lia.
  - intros raw k0 c0 a v ts l U C0 La IHa _ IH n k kvs c r C Hk Hn.
    destruct (literal_first _ _ La) as (t & ta & -> & F).
    destruct k as [|k]; [simpl in Hk; lia|]. simpl in Hk, Hn. rewrite app_length in Hk, Hn. simpl in Hk, Hn.
    rewrite floop_step. simpl. rewrite U. simpl.
    assert (is_type COLON c0 = true) as Ec by (apply is_type_eq; exact C0).
    unfold f_expect, f_one, c_type. simpl. rewrite Ec. simpl.
    rewrite <- app_assoc, (IHa t ta n _ eq_refl) by lia. simpl. rewrite <- assigned_snoc.
    rewrite IH; [rewrite <- app_assoc; reflexivity|exact C|lia|lia].
Qed.
Lemma literal_exact n t ts v : length ts < n ->
  (literal X (t :: ts) v -> forall r, f_literal n t (ts ++ r) = Some (v, r)).
Proof. intros Hn H r. destruct literal_complete as (L & _). apply (L _ _ H t ts); [reflexivity|exact Hn]. Qed.

(** *** JSON *)
Lemma unquote_app c t s r : json_char c t -> json_text s r -> unquote r = Some s -> unquote (t +++ r) = Some (String c s).
Proof.
  intros H _ U. inversion H as [L Q B|Q|Q|Q|Q|Q|Q|Q|a b L E]; subst.
  - simpl. rewrite U. simpl.
    destruct (Ascii.eqb c """") eqn:E1; [apply Ascii.eqb_eq in E1; contradiction|].
    destruct (Ascii.eqb c "\") eqn:E2; [apply Ascii.eqb_eq in E2; contradiction|].
    destruct (Ascii.eqb c "010") eqn:E3; [apply Ascii.eqb_eq in E3; subst; vm_compute in L; lia|].
    reflexivity.
  - simpl. rewrite U. reflexivity.
  - simpl. rewrite U. reflexivity.
  - simpl. rewrite U. rewrite <- Q, ascii_nat_embedding. reflexivity.
  - simpl. rewrite U. rewrite <- Q, ascii_nat_embedding. reflexivity.
  - simpl. rewrite U. rewrite <- Q, ascii_nat_embedding. reflexivity.
  - simpl. rewrite U. rewrite <- Q, ascii_nat_embedding. reflexivity.
  - simpl. rewrite U. rewrite <- Q, ascii_nat_embedding. reflexivity.
  - destruct E as (x & y & Hx & Hy & E).
    cbn [append]. cbn [unquote].
    change (Ascii.eqb "\" """") with false. change (Ascii.eqb "\" "010") with false.
    change (Ascii.eqb "\" "\") with true. cbv iota.
    change (simple_escape "u") with (@None nat). cbv iota.
    change (Ascii.eqb "u" "x") with false. change (Ascii.eqb "u" "u") with true. cbv iota.
    rewrite U. unfold hex_num. change (hex_val "0") with (Some 0). cbv iota. rewrite Hx, Hy.
    replace (((0 * 16 + N.of_nat 0) * 16 + N.of_nat 0) * 16 + N.of_nat x)%N with (N.of_nat x) by lia.
    unfold utf8. replace (N.of_nat x * 16 + N.of_nat y)%N with (N.of_nat (nat_of_ascii c)) by lia.
    destruct (N.ltb_spec (N.of_nat (nat_of_ascii c)) 128) as [_|G]; [|lia].
    simpl. unfold chr. rewrite Nat2N.id, ascii_nat_embedding. reflexivity.
Qed.
Lemma byte_chr k : byte k = chr (N.to_nat k).
Proof. unfold byte, chr, ascii_of_nat. rewrite N2Nat.id. reflexivity. Qed.
Lemma utf8_of n t : utf8_bytes n t -> utf8 n = Some t.
Proof.
  unfold utf8. intros [x y Lx Ly -> L|x y z Lx Ly Lz -> L S]; rewrite !byte_chr; cbv zeta.
  - replace (64 * x + y <? 128)%N with false by (symmetry; apply N.ltb_ge; lia). replace (64 * x + y <? 2048)%N with true by (symmetry; apply N.ltb_lt; lia).
    replace ((64 * x + y) / 64)%N with x by (apply (N.div_unique _ 64 x y); lia). replace ((64 * x + y) mod 64)%N with y by (apply (N.mod_unique _ 64 x y); lia). reflexivity.
  - set (n := (4096 * x + 64 * y + z)%N) in *. replace (n <? 128)%N with false by (symmetry; apply N.ltb_ge; lia). replace (n <? 2048)%N with false by (symmetry; apply N.ltb_ge; lia).
    replace ((55296 <=? n) && (n <? 57344))%N%bool with false by (symmetry; apply Bool.not_true_is_false; intros E; apply andb_prop in E as [E1 E2]; apply S; split; [apply N.leb_le, E1|apply N.ltb_lt, E2]).
    replace (n <? 65536)%N with true by (symmetry; apply N.ltb_lt; unfold n; lia).
    replace (n / 4096)%N with x by (apply (N.div_unique _ 4096 x (64 * y + z)); unfold n; lia).
    assert (D : (n / 64)%N = (64 * x + y)%N) by (symmetry; apply (N.div_unique _ 64 _ z); unfold n; lia). rewrite D.
    replace ((64 * x + y) mod 64)%N with y by (apply (N.mod_unique _ 64 x y); lia). replace (n mod 64)%N with z by (apply (N.mod_unique _ 64 (64 * x + y) z); unfold n; lia). reflexivity.
Qed.
Lemma unquote_wide n a b c d t s r : hex_four n a b c d -> utf8_bytes n t -> unquote r = Some s -> unquote (String "\" (String "u" (String a (String b (String c (String d r)))))) = Some (t +++ s).
Proof.
  intros (x & y & z & w & A & B & C & D & E) U R. cbn [unquote Ascii.eqb Bool.eqb simple_escape hex_num]. rewrite A, B, C, D.
  replace ((((0 * 16 + N.of_nat x) * 16 + N.of_nat y) * 16 + N.of_nat z) * 16 + N.of_nat w)%N with n by lia. rewrite (utf8_of _ _ U), R. reflexivity.
Qed.
Lemma json_text_unquote s r : json_text s r -> unquote r = Some s.
Proof. induction 1; [reflexivity| |eapply unquote_app; eauto]. apply (unquote_wide n a b c d); assumption. Qed.

Lemma assigned_fresh {A} (l : list (string * A)) : NoDup (map fst l) -> assigned l = l.
Proof.
  intros N. unfold assigned.
  enough (forall acc, (forall k, In k (map fst l) -> ~ In k (keys acc)) ->
    fold_left (fun m kv => assoc_set (fst kv) (snd kv) m) l acc = acc ++ l) as W.
  { rewrite W; [reflexivity|]. simpl. auto. }
  induction l as [|[k v] l IH]; intros acc D; simpl; [rewrite app_nil_r; reflexivity|].
  inversion N as [|? ? N1 N2]; subst. rewrite assoc_set_new by (apply D; left; reflexivity).
  rewrite IH; [rewrite <- app_assoc; reflexivity|exact N2|].
  intros k0 H0. unfold keys. rewrite map_app. simpl. intros H1. apply in_app_or in H1 as [H1|[<- |[]]]; [|contradiction].
  apply (D k0); [right; exact H0|exact H1].
Qed.
Lemma blanks_items bl ts l : Forall blank bl -> items X ts l -> items X (bl ++ ts) l.
Proof. induction 1; simpl; auto. intros. apply items_skip; auto. Qed.
Lemma blanks_entries bl ts l : Forall blank bl -> entries X ts l -> entries X (bl ++ ts) l.
Proof.
  induction 1 as [|t bl B _ IH]; simpl; auto. intros. unfold blank, of_type in B.
  apply entries_skip; [| | |auto]; unfold of_type; destruct B as [-> | ->]; discriminate.
Qed.
Scheme writes_mut := Induction for writes Sort Prop
  with writes_items_mut := Induction for writes_items Sort Prop
  with writes_entries_mut := Induction for writes_entries Sort Prop.
Lemma writes_literal j toks : writes X j toks -> literal X toks (json_value j).
Proof.
  apply (writes_mut X (fun j toks _ => literal X toks (json_value j))
    (fun l ts _ => items X ts (map json_value l))
    (fun l ts _ => entries X ts (map (fun kv => (fst kv, json_value (snd kv))) l))); simpl.
  - constructor.
  - constructor.
  - constructor.
  - intros s raw H. constructor. apply json_text_unquote, H.
  - intros. constructor. assumption.
  - intros. apply lit_array; assumption.
  - intros l ts o c O C N _ H.
    rewrite <- (assigned_fresh (map (fun kv : string * json => (fst kv, json_value (snd kv))) l)).
    + apply lit_object; assumption.
    + rewrite map_map. simpl. exact N.
  - intros bl B. rewrite <- (app_nil_r bl). apply blanks_items; [exact B|constructor].
  - intros j0 l bl a ts B _ IHa _ IH. apply blanks_items; [exact B|]. apply items_cons; assumption.
  - intros bl B. rewrite <- (app_nil_r bl). apply blanks_entries; [exact B|constructor].
  - intros k j0 l bl raw c a ts B J C _ IHa _ IH. apply blanks_entries; [exact B|].
    apply entries_cons; [apply json_text_unquote, J|exact C|exact IHa|exact IH].
Qed.

Lemma a_literal_value n : acts (parse_literal_value X n) (case_list None (f_literal n)).
Proof. unfold parse_literal_value. apply acts_get; [|apply acts_fail]. intros t. apply acts_any, a_literal. Qed.
Lemma literal_value_iff n st v : length (pending st) <= n -> forall r,
  (exists st', run (parse_literal_value X n) st = Ok (v, st') /\ pending st' = r)
  <-> exists ts, pending st = ts ++ r /\ literal X ts v.
Proof.
  intros Hn r. split.
  - intros (st' & R & <-). apply (acts_run _ _ _ _ _ (a_literal_value n)) in R.
    unfold case_list in R. destruct (pending st) as [|t l]; [discriminate|].
    apply literal_sound in R as (ts & -> & L). exists (t :: ts). split; [reflexivity|exact L].
  - intros (ts & P & L). apply (run_acts _ _ _ _ _ (a_literal_value n)). rewrite P.
    destruct (literal_first _ _ L) as (t & ts' & -> & _). simpl. apply literal_exact; [|exact L].
    rewrite P, app_length in Hn. simpl in Hn. lia.
Qed.
End L.
