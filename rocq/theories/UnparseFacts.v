(** Reading the text of a type spec gives back what it keeps. *)
From Verif Require Import GoStr Outcome Value Schema Scalars Time TimeFacts Misc MiscFacts Model Scan ScanFacts Acts Parser
  SpecModel SpecMisc SpecText SpecOptions LiteralFacts OptionFacts PositionFacts InlineFacts Yields Unparser SpecUnparse.

Lemma tokens_app a b : tokens (a ++ b) = tokens a ++ tokens b.
Proof. apply flat_map_app. Qed.
Lemma tokens_cons p l : tokens (p :: l) = piece_tokens p ++ tokens l.
Proof. reflexivity. Qed.
Lemma strip_tokens l : strip (tokens l) = tokens l.
Proof.
  induction l as [|p l IH]; [reflexivity|]. rewrite tokens_cons, strip_app, IH. f_equal.
  destruct p; try reflexivity. simpl. destruct t; reflexivity.
Qed.
Lemma strip_tokens_app l r : strip (tokens l ++ r) = tokens l ++ strip r.
Proof. rewrite strip_app, strip_tokens. reflexivity. Qed.

Definition newline_tok : token := mkTok NEWLINE (chr 10).
(** tokens between the entries of a block *)
Definition junk (t : token) : Prop := tk_type t = NEWLINE \/ tk_type t = LINE_COMMENT.
Lemma junk_type t : junk t -> is_block t = false.
Proof. unfold is_block. intros [H|H]; rewrite H; reflexivity. Qed.
Definition is_comment_tok (t : token) : bool := teqb (tk_type t) LINE_COMMENT.
Definition no_comment (l : list token) : Prop := Forall (fun t => tk_type t = NEWLINE) l.

(** ** Escapes *)
Lemma has_char_cons c a s : has_char c (String a s) <-> c = a \/ has_char c s.
Proof.
  split.
  - intros (x & y & E). destruct x as [|x0 x]; simpl in E; injection E as E1 E2.
    + left. congruence.
    + right. subst. exists x, y. reflexivity.
  - intros [-> |(x & y & ->)].
    + exists "", s. reflexivity.
    + exists (String a x), y. reflexivity.
Qed.
Lemma plain_escape s : plain s -> escape go_escape s = s.
Proof.
  induction s as [|c s IH]; intros H; [reflexivity|]. simpl.
  rewrite IH by (intros x Hx; apply H, has_char_cons; auto).
  destruct (H c) as (R & Q1 & Q2); [apply has_char_cons; auto|].
  unfold go_escape. apply Ascii.eqb_neq in Q1, Q2. rewrite Q1, Q2.
  repeat match goal with |- context [?a =? ?b] => destruct (Nat.eqb_spec a b); [lia|] end.
  destruct (nat_of_ascii c <? 32) eqn:L; [apply Nat.ltb_lt in L; lia|]. reflexivity.
Qed.

(** ** Integers *)
Lemma time_digits s z : SpecTime.digits s z -> SpecOptions.digits s z.
Proof.
  intros H. apply digits_dv in H as (N & H). apply unsigned_iff. unfold unsigned_val. destruct s as [|c s]; [congruence|].
  revert H. generalize (String c s) as u. intros u. generalize 0%Z as acc.
  induction u as [|x u IH]; intros acc H; [exact H|]. cbn [TimeFacts.dv digits_val] in *.
  destruct (Time.digit_val x) as [d|] eqn:D; [|discriminate].
  apply digit_val_Some in D as (D1 & D2). unfold Scan.digit_val.
  replace (is_digit x) with true by (symmetry; apply is_digit_iff; unfold SpecMisc.digit; lia).
  apply IH. replace (acc * 10 + Z.of_nat (nat_of_ascii x - 48))%Z with (10 * acc + d)%Z by lia. exact H.
Qed.
Lemma fmt_int64 z : (- 2 ^ 63 <= z < 2 ^ 63)%Z -> int64 (fmt_d z) z.
Proof.
  intros H. split; [|exact H]. destruct (Z.ltb_spec z 0) as [L|L].
  - assert (fmt_d z = String "-" (fmt_d (- z))) as ->.
    { unfold fmt_d. destruct (Z.ltb_spec z 0); [|lia]. destruct (Z.ltb_spec (- z) 0); [lia|]. reflexivity. }
    replace z with (- - z)%Z at 2 by lia. apply int_minus. apply time_digits, fmt_d_digits. lia.
  - apply int_plain. apply time_digits, fmt_d_digits. lia.
Qed.

(** ** Option lists *)
Section U.
Variable X : ext.
Variable dec_text : decimal -> string.
Notation u_spec := (u_spec dec_text).
Notation reads_back := (reads_back X dec_text).
Notation writable := (writable X dec_text).

Definition starts_no (ty : ttype) (l : list token) : Prop :=
  exists t r, l = t :: r /\ is_block t = false /\ tk_type t <> ty.
Lemma join_items acc ps ws : Forall2 (fun p w => opt_text X acc (tokens p) w) ps ws ->
  opt_items X acc (tokens (join_pieces [P COMMA; Sp " "] ps)) ws.
Proof.
  induction 1 as [|p w ps ws H HF IH]; [apply oi_nil|]. destruct HF as [|p' w' ps ws H' HF].
  - simpl. apply opt_items_one. exact H.
  - change (join_pieces [P COMMA; Sp " "] (p :: p' :: ps)) with (p ++ [P COMMA; Sp " "] ++ join_pieces [P COMMA; Sp " "] (p' :: ps)).
    rewrite !tokens_app. apply oi_cons; [exact H|]. simpl (tokens [_; _]). apply oi_comma; [reflexivity|]. exact IH.
Qed.
Lemma y_options acc ps ws rest : Forall2 (fun p w => opt_text X acc (tokens p) w) ps ws ->
  starts_no OPEN_PAREN rest ->
  yields (fun n => parse_options X n acc) None (tokens (u_options ps) ++ rest)
    (fold_left (fun o w => record w o) ws no_options) None rest.
Proof.
  intros H (t & r & -> & B & T).
  apply (y_acts _ (fun n => f_options X n acc) _ _ _ (length (strip (tokens (u_options ps) ++ t :: r)))).
  - intros n. apply a_options.
  - intros n Hn. apply options_complete; [|exact Hn]. rewrite strip_tokens_app.
    destruct ps as [|p ps].
    + inversion H; subst. simpl. apply op_none. intros t' r' E. unfold strip in E. simpl in E. rewrite B in E. simpl in E.
      injection E as <- _. unfold of_type. congruence.
    + unfold u_options. rewrite !tokens_cons, tokens_app. simpl (piece_tokens _).
      rewrite <- !app_assoc. simpl ([] ++ _). simpl ([_] ++ _). apply op_list; [reflexivity|reflexivity|].
      exact (join_items _ _ _ H).
Qed.

Definition anno_opt (kv : string * string) : wopt := OAnno (fst kv) (snd kv).
Lemma annos_items acc a : annos_ok a -> Forall2 (fun p w => opt_text X acc (tokens p) w) (map u_anno a) (map anno_opt a).
Proof.
  intros (_ & H). induction a as [|(k & v) a IH]; [constructor|]. simpl. constructor.
  - destruct (H k v (or_introl eq_refl)) as (_ & P1 & P2). unfold u_anno, anno_opt. simpl. rewrite plain_escape by exact P2.
    apply ot_anno; [exact P1|reflexivity].
  - apply IH. intros k' v' Hin. apply H. right. exact Hin.
Qed.
Lemma fold_annos a : forall o, NoDup (map fst (o_annos o ++ a)) ->
  fold_left (fun o w => record w o) (map anno_opt a) o = set_opt_annos (o_annos o ++ a) o.
Proof.
  induction a as [|(k & v) a IH]; intros o H.
  - simpl. rewrite app_nil_r. destruct o; reflexivity.
  - simpl. rewrite assoc_set_new.
    + rewrite IH; simpl; rewrite <- app_assoc; [reflexivity|exact H].
    + unfold keys. rewrite map_app in H. simpl in H. apply NoDup_remove_2 in H. rewrite in_app_iff in H. tauto.
Qed.

(** ** Fields and their options *)
Definition f_opts (req : bool) (a : annos) : list (list piece) := (if req then [[W "required"]] else []) ++ map u_anno a.
Definition f_wopts (req : bool) (a : annos) : list wopt := (if req then [ORequired] else []) ++ map anno_opt a.
Definition with_f (req : bool) (a : annos) : options :=
  mkOpts req VNil "" None None None None None "" "" "" "" "" a.
Lemma f_opts_items acc req a : In "required" acc -> annos_ok a ->
  Forall2 (fun p w => opt_text X acc (tokens p) w) (f_opts req a) (f_wopts req a).
Proof.
  intros R A. unfold f_opts, f_wopts. apply Forall2_app; [|apply annos_items, A].
  destruct req; constructor; [|constructor]. apply ot_required. split; [reflexivity|exact R].
Qed.
Lemma f_wopts_fold req a : annos_ok a -> fold_left (fun o w => record w o) (f_wopts req a) no_options = with_f req a.
Proof.
  intros (N & _). unfold f_wopts. rewrite fold_left_app. rewrite fold_annos; [destruct req; reflexivity|].
  destruct req; exact N.
Qed.
(** the limits of a type *)
Definition opt_w {A} (o : option A) (f : A -> wopt) : list wopt := match o with Some a => [f a] | None => [] end.
Lemma sizes_items acc ts : In "minsize" acc -> In "maxsize" acc -> fits64 (ts_minsize ts) -> fits64 (ts_maxsize ts) ->
  Forall2 (fun p w => opt_text X acc (tokens p) w) (u_sizes ts) (opt_w (ts_minsize ts) OMinsize ++ opt_w (ts_maxsize ts) OMaxsize).
Proof.
  intros I1 I2 F1 F2. unfold u_sizes. apply Forall2_app.
  - destruct (ts_minsize ts) as [z|]; [|constructor]. constructor; [|constructor].
    apply ot_minsize; [split; [reflexivity|exact I1]|reflexivity|apply fmt_int64, F1; reflexivity].
  - destruct (ts_maxsize ts) as [z|]; [|constructor]. constructor; [|constructor].
    apply ot_maxsize; [split; [reflexivity|exact I2]|reflexivity|apply fmt_int64, F2; reflexivity].
Qed.
Lemma strings_blanks bl ts l : Forall blank bl -> strings ts l -> strings (bl ++ ts) l.
Proof. induction 1; intros H1; [exact H1|]. simpl. apply strings_skip; auto. Qed.
Lemma list_strings l : Forall plain l -> exists ts,
  tokens (u_strings l) = mkTok OPEN_BRACKET "[" :: ts ++ [mkTok CLOSE_BRACKET "]"] /\ strings ts l.
Proof.
  intros H. unfold u_strings. set (delim := if 5 <? length l then [NL; Sp "    "] else []).
  set (fin := if 5 <? length l then [NL] else []).
  assert (Forall blank (tokens delim)) as BD.
  { unfold delim. destruct (5 <? length l); [|constructor]. constructor; [left; reflexivity|constructor]. }
  assert (Forall blank (tokens fin)) as BF.
  { unfold fin. destruct (5 <? length l); [|constructor]. constructor; [left; reflexivity|constructor]. }
  exists (tokens delim ++ tokens (join_pieces (P COMMA :: delim) (map (fun s => [Q s]) l)) ++ tokens fin). split.
  - rewrite tokens_cons, !tokens_app. simpl (piece_tokens _). rewrite <- !app_assoc. reflexivity.
  - clearbody delim fin. apply strings_blanks; [exact BD|]. induction H as [|s l Hs HF IH].
    + simpl. rewrite <- (app_nil_r (tokens fin)). apply strings_blanks; [exact BF|constructor].
    + destruct l as [|s' l].
      * simpl. rewrite plain_escape by exact Hs. apply strings_cons.
        rewrite <- (app_nil_r (tokens fin)). apply strings_blanks; [exact BF|constructor].
      * change (join_pieces (P COMMA :: delim) (map (fun s => [Q s]) (s :: s' :: l)))
          with (Q s :: P COMMA :: delim ++ join_pieces (P COMMA :: delim) (map (fun s => [Q s]) (s' :: l))).
        rewrite !tokens_cons, tokens_app. simpl (piece_tokens _). rewrite plain_escape by exact Hs.
        rewrite <- !app_assoc. simpl. apply strings_cons. apply strings_skip; [right; reflexivity|].
        apply strings_blanks; [exact BD|]. exact IH.
Qed.
Definition string_opts (ts : typespec) : list (list piece) :=
  (if ts_pattern ts =?s "" then [] else [[W "pattern"; P EQUALS; Q (ts_pattern ts)]])
  ++ u_sizes ts ++ opt_piece (ts_values ts) (fun l => W "values" :: P EQUALS :: u_strings l).
Definition string_wopts (ts : typespec) : list wopt :=
  (if ts_pattern ts =?s "" then [] else [OPattern (ts_pattern ts)])
  ++ (opt_w (ts_minsize ts) OMinsize ++ opt_w (ts_maxsize ts) OMaxsize) ++ opt_w (ts_values ts) OValues.
Lemma string_items acc ts : In "pattern" acc -> In "minsize" acc -> In "maxsize" acc -> In "values" acc ->
  plain (ts_pattern ts) -> fits64 (ts_minsize ts) -> fits64 (ts_maxsize ts) -> (forall l, ts_values ts = Some l -> Forall plain l) ->
  Forall2 (fun p w => opt_text X acc (tokens p) w) (string_opts ts) (string_wopts ts).
Proof.
  intros I1 I2 I3 I4 P1 P2 P3 P4. unfold string_opts, string_wopts. apply Forall2_app; [|apply Forall2_app].
  - destruct (ts_pattern ts =?s ""); constructor; [|constructor]. simpl. rewrite plain_escape by exact P1.
    apply ot_pattern; [split; [reflexivity|exact I1]|reflexivity].
  - apply sizes_items; assumption.
  - destruct (ts_values ts) as [l|]; [|constructor]. constructor; [|constructor].
    destruct (list_strings l (P4 l eq_refl)) as (tk & E & S). rewrite !tokens_cons, E.
    simpl. apply ot_values; [split; [reflexivity|exact I4]|reflexivity|reflexivity|reflexivity|exact S].
Qed.
Definition number_opts (ts : typespec) : list (list piece) :=
  opt_piece (ts_min ts) (u_dec dec_text "min") ++ opt_piece (ts_max ts) (u_dec dec_text "max").
Definition number_wopts (ts : typespec) : list wopt := opt_w (ts_min ts) OMin ++ opt_w (ts_max ts) OMax.
Lemma number_items acc ts : In "min" acc -> In "max" acc -> reads_back (ts_min ts) -> reads_back (ts_max ts) ->
  Forall2 (fun p w => opt_text X acc (tokens p) w) (number_opts ts) (number_wopts ts).
Proof.
  intros I1 I2 P1 P2. unfold number_opts, number_wopts. apply Forall2_app.
  - destruct (ts_min ts) as [d|]; [|constructor]. constructor; [|constructor].
    apply ot_min; [split; [reflexivity|exact I1]|reflexivity|apply P1; reflexivity].
  - destruct (ts_max ts) as [d|]; [|constructor]. constructor; [|constructor].
    apply ot_max; [split; [reflexivity|exact I2]|reflexivity|apply P2; reflexivity].
Qed.

(** ** Types without braces *)
Local Arguments str_mem : simpl never.
Definition head (ts : typespec) : list piece :=
  if ts_type ts =?s "Array" then [W "List"; P OPEN_ANGLE; W (ts_items ts); P CLOSE_ANGLE]
  else if ts_type ts =?s "Map" then [W "Map"; P OPEN_ANGLE; W (ts_keys ts); P COMMA; W (ts_items ts); P CLOSE_ANGLE]
  else [W (ts_type ts)].
Definition lims (ts : typespec) : list (list piece) :=
  if ts_type ts =?s "String" then string_opts ts
  else if str_mem (ts_type ts) numeric_types then number_opts ts
  else if (ts_type ts =?s "Array") || (ts_type ts =?s "Map") then u_sizes ts
  else [].
Definition wlims (ts : typespec) : list wopt :=
  if ts_type ts =?s "String" then string_wopts ts
  else if str_mem (ts_type ts) numeric_types then number_wopts ts
  else if (ts_type ts =?s "Array") || (ts_type ts =?s "Map") then opt_w (ts_minsize ts) OMinsize ++ opt_w (ts_maxsize ts) OMaxsize
  else [].
Definition te_of (ts : typespec) : telems :=
  mkTE (ts_type ts)
    (if ts_type ts =?s "Array" then Some [ts_items ts] else if ts_type ts =?s "Map" then Some [ts_keys ts; ts_items ts] else None)
    None [] no_options "".

Lemma num_cases t : str_mem t numeric_types = true ->
  (t =?s "Enum") = false /\ (t =?s "String") = false /\ (t =?s "Array") = false /\ (t =?s "Map") = false
  /\ (t =?s "Struct") = false /\ (t =?s "Union") = false /\ (t =?s "List") = false /\ (t =?s "UnitValue") = false
  /\ (t =?s "UUID") = false /\ (t =?s "Bytes") = false /\ braced t = false.
Proof.
  intros H. apply str_mem_In in H. unfold numeric_types in H. simpl in H.
  repeat (destruct H as [<- |H]; [repeat split; reflexivity|]). destruct H.
Qed.
Lemma braced_false t : braced t = false -> (t =?s "Enum") = false /\ (t =?s "Struct") = false /\ (t =?s "Union") = false.
Proof.
  intros B. unfold braced in B. destruct (t =?s "Enum") eqn:E1; [apply seqb_eq in E1; subst; discriminate|].
  destruct (t =?s "Struct") eqn:E2; [apply seqb_eq in E2; subst; discriminate|].
  destruct (t =?s "Union") eqn:E3; [apply seqb_eq in E3; subst; discriminate|]. auto.
Qed.
Lemma u_spec_flat ts opts indent : braced (ts_type ts) = false ->
  u_spec ts opts indent = head ts ++ u_options (opts ++ lims ts).
Proof.
  intros B. destruct (braced_false _ B) as (B1 & B2 & B3). unfold head, lims.
  destruct ts as [t pat vals mins maxs fields els min max items keys variants unit val ref]. simpl in *.
  rewrite B1, B2, B3. destruct (t =?s "String") eqn:S.
  { apply seqb_eq in S. subst t. reflexivity. }
  destruct (str_mem t numeric_types) eqn:M.
  { destruct (num_cases _ M) as (_ & _ & -> & -> & _). reflexivity. }
  destruct (t =?s "Array") eqn:A.
  { simpl. reflexivity. }
  destruct (t =?s "Map") eqn:Mp; simpl.
  - reflexivity.
  - rewrite app_nil_r. reflexivity.
Qed.

Lemma identifier_no_block s : is_block (mkTok SYMBOL s) = false.
Proof. reflexivity. Qed.
Lemma y_identifier s l : yields (fun _ => expect_identifier) None (mkTok SYMBOL s :: l) s (Some (mkTok SYMBOL s)) l.
Proof. unfold expect_identifier. yget. apply y_ret. Qed.
Lemma elems_plain t rest : braced t = false -> starts_no OPEN_ANGLE rest ->
  yields (fun n => type_spec_elements X n) None (mkTok SYMBOL t :: rest) (mkTE t None None [] no_options "") None rest.
Proof.
  intros B (t1 & r & -> & NB & T). apply y_S. cbn [type_spec_elements]. ybind; [apply y_identifier|].
  apply y_get; [exact NB|]. cbv beta iota. apply is_type_neq in T. rewrite T.
  replace (str_mem t ["Struct"; "Enum"; "Union"]) with false.
  - apply y_unget; [exact NB|]. apply y_ret.
  - symmetry. destruct (str_mem t ["Struct"; "Enum"; "Union"]) eqn:E; [|reflexivity].
    apply str_mem_In in E. destruct (braced_false _ B) as (B1 & B2 & B3). simpl in E.
    destruct E as [<- |[<- |[<- |[]]]]; discriminate.
Qed.
Lemma elems_angle1 i rest :
  yields (fun n => type_spec_elements X n) None (tokens [W "List"; P OPEN_ANGLE; W i; P CLOSE_ANGLE] ++ rest)
    (mkTE "Array" (Some [i]) None [] no_options "") None rest.
Proof.
  apply y_S. cbn [type_spec_elements]. simpl. ybind; [apply y_identifier|]. yget. cbn.
  eapply y_weak_r. apply y_loop. eapply it_next; [yget; apply y_ret|].
  eapply it_stop. yget. cbn. apply y_ret.
Qed.
Lemma elems_angle2 k i rest :
  yields (fun n => type_spec_elements X n) None (tokens [W "Map"; P OPEN_ANGLE; W k; P COMMA; W i; P CLOSE_ANGLE] ++ rest)
    (mkTE "Map" (Some [k; i]) None [] no_options "") None rest.
Proof.
  apply y_S. cbn [type_spec_elements]. simpl. ybind; [apply y_identifier|]. yget. cbn.
  eapply y_weak_r. apply y_loop. eapply it_next; [yget; apply y_ret|]. eapply it_next; [yget; apply y_ret|].
  eapply it_next; [yget; apply y_ret|]. eapply it_stop. yget. cbn. apply y_ret.
Qed.
Lemma elems_flat ts rest : braced (ts_type ts) = false -> starts_no OPEN_ANGLE rest ->
  yields (fun n => type_spec_elements X n) None (tokens (head ts) ++ rest) (te_of ts) None rest.
Proof.
  intros B S. unfold head, te_of. destruct (ts_type ts =?s "Array") eqn:A.
  - apply seqb_eq in A. rewrite A. apply elems_angle1.
  - destruct (ts_type ts =?s "Map") eqn:M.
    + apply seqb_eq in M. rewrite M. apply elems_angle2.
    + apply elems_plain; assumption.
Qed.
Lemma lims_items acc ts : writable ts -> braced (ts_type ts) = false ->
  (forall x, In x (type_allows (ts_type ts)) -> In x acc) ->
  Forall2 (fun p w => opt_text X acc (tokens p) w) (lims ts) (wlims ts).
Proof.
  intros Wr B I. unfold lims, wlims, type_allows in *.
  inversion Wr as [ts0 T|ts0 T W1 W2 W3 W4|ts0 T W1 W2|ts0 T W1 W2 W3|ts0 T W1 W2 W3 W4|ts0 T|ts0 T|ts0 W1 T]; subst ts0;
    try (rewrite T in B; discriminate).
  - rewrite T in *. simpl in *. apply string_items; auto 10; apply I; simpl; auto 10.
  - assert (str_mem (ts_type ts) numeric_types = true) as M by (apply str_mem_In; exact T).
    destruct (num_cases _ M) as (_ & -> & _). rewrite M. unfold numeric_types in M. rewrite M in I.
    apply number_items; auto; apply I; simpl; auto.
  - rewrite T in *. simpl in *. apply sizes_items; auto; apply I; simpl; auto.
  - rewrite T in *. simpl in *. apply sizes_items; auto; apply I; simpl; auto.
  - assert (forall s, In s special_kinds -> (ts_type ts =?s s) = false) as N.
    { intros s Hs. destruct (ts_type ts =?s s) eqn:E; [|reflexivity]. apply seqb_eq in E. rewrite E in T. contradiction. }
    rewrite !N by (simpl; auto 20).
    replace (str_mem (ts_type ts) numeric_types) with false; [constructor|].
    symmetry. destruct (str_mem (ts_type ts) numeric_types) eqn:E; [|reflexivity]. apply str_mem_In in E.
    exfalso. apply T. unfold special_kinds. apply in_or_app. right. exact E.
Qed.
Definition ts0_of (ts : typespec) : typespec :=
  let t := ts_type ts in
  mkTS t "" None None None [] [] None None
    (if (t =?s "Array") || (t =?s "Map") then ts_items ts else "") (if t =?s "Map" then ts_keys ts else "") []
    (if t =?s "UnitValue" then "String" else "") (if t =?s "UnitValue" then "Decimal" else "") "".
Lemma not_special ts : ~ In (ts_type ts) special_kinds -> forall s, In s special_kinds -> (ts_type ts =?s s) = false.
Proof.
  intros T s Hs. destruct (ts_type ts =?s s) eqn:E; [|reflexivity]. apply seqb_eq in E. rewrite E in T. contradiction.
Qed.
Lemma not_special_num ts : ~ In (ts_type ts) special_kinds -> str_mem (ts_type ts) numeric_types = false.
Proof.
  intros T. destruct (str_mem (ts_type ts) numeric_types) eqn:E; [|reflexivity]. apply str_mem_In in E.
  exfalso. apply T. unfold special_kinds. apply in_or_app. right. exact E.
Qed.
Lemma type_spec_flat ts : writable ts -> braced (ts_type ts) = false -> type_spec_of (te_of ts) = Ret (ts0_of ts).
Proof.
  intros Wr B. unfold type_spec_of, te_of, ts0_of. cbn [te_type te_params te_fields te_elements opt_list].
  inversion Wr as [ts0 T|ts0 T W1 W2 W3 W4|ts0 T W1 W2|ts0 T W1 W2 W3|ts0 T W1 W2 W3 W4|ts0 T|ts0 T|ts0 W1 T]; subst ts0;
    try (rewrite T in B; discriminate); try (rewrite T; reflexivity).
  - assert (str_mem (ts_type ts) numeric_types = true) as M by (apply str_mem_In; exact T).
    destruct (num_cases _ M) as (_ & _ & -> & -> & _ & _ & -> & -> & _). reflexivity.
  - pose proof (not_special _ T) as N. rewrite !N by (simpl; auto 20). simpl.
    destruct (ts_type ts =?s "UnitValue"); reflexivity.
Qed.
Lemma wlims_fold ts req a : writable ts -> braced (ts_type ts) = false ->
  exists o, fold_left (fun o w => record w o) (wlims ts) (with_f req a) = o
    /\ with_options (ts0_of ts) o = kept ts /\ o_required o = req /\ o_default o = VNil /\ o_annos o = a
    /\ o_header o = "".
Proof.
  intros Wr B. eexists. split; [reflexivity|]. unfold wlims, ts0_of, with_options.
  inversion Wr as [ts0 T|ts0 T W1 W2 W3 W4|ts0 T W1 W2|ts0 T W1 W2 W3|ts0 T W1 W2 W3 W4|ts0 T|ts0 T|ts0 W1 T]; subst ts0;
    try (rewrite T in B; discriminate).
  - rewrite T. cbn. destruct ts as [t pat vals mins maxs fields els min max items keys variants unit val ref]. simpl in *. subst t.
    unfold string_wopts. simpl. destruct (pat =?s "") eqn:E; [apply seqb_eq in E; subst pat|];
      destruct mins, maxs, vals as [[|]|]; simpl; repeat split; reflexivity.
  - assert (str_mem (ts_type ts) numeric_types = true) as M by (apply str_mem_In; exact T).
    destruct (num_cases _ M) as (E1 & E2 & E3 & E4 & E5 & E6 & _ & E8 & _). rewrite E2, E3, E4, E8, M.
    destruct ts as [t pat vals mins maxs fields els min max items keys variants unit val ref]. simpl in *.
    rewrite E1, E2. change (str_mem t number_kinds) with (str_mem t numeric_types). rewrite M.
    unfold number_wopts. simpl. destruct min, max; simpl; repeat split; reflexivity.
  - rewrite T. cbn. destruct ts as [t pat vals mins maxs fields els min max items keys variants unit val ref]. simpl in *. subst t.
    destruct mins, maxs; simpl; repeat split; reflexivity.
  - rewrite T. cbn. destruct ts as [t pat vals mins maxs fields els min max items keys variants unit val ref]. simpl in *. subst t.
    destruct mins, maxs; simpl; repeat split; reflexivity.
  - pose proof (not_special _ T) as N. pose proof (not_special_num _ T) as M. rewrite M. rewrite !N by (simpl; auto 20).
    destruct ts as [t pat vals mins maxs fields els min max items keys variants unit val ref]. simpl in *.
    change (str_mem t number_kinds) with (str_mem t numeric_types).
    rewrite M, (N "Enum"), (N "String"), (N "Array"), (N "Map"), (N "Struct"), (N "Union") by auto 20. destruct (t =?s "UnitValue") eqn:E; [apply seqb_eq in E; subst t|]; simpl; repeat split; reflexivity.
Qed.

(** ** The end of a statement *)
Definition com_toks (com : option string) : list token := match com with Some c => [mkTok LINE_COMMENT c] | None => [] end.
Definition eos_comment (c : string) (com : option string) : string := match com with Some x => merge_comment c x | None => c end.
Lemma y_eos c com rest :
  yields (fun n => end_of_statement' n c) None (com_toks com ++ newline_tok :: rest) (eos_comment c com, true) (Some newline_tok) rest.
Proof.
  unfold end_of_statement'. apply y_loop. destruct com as [x|]; simpl.
  - eapply it_next; [yget; apply y_ret|]. eapply it_stop. yget. apply y_ret.
  - eapply it_stop. yget. apply y_ret.
Qed.
Lemma starts_eos ty com rest : ty <> LINE_COMMENT -> ty <> NEWLINE -> starts_no ty (com_toks com ++ newline_tok :: rest).
Proof.
  intros H1 H2. destruct com as [x|]; simpl; eexists _, _; (split; [reflexivity|]); (split; [reflexivity|]); simpl; congruence.
Qed.
Lemma starts_options ty ps rest : ty <> OPEN_PAREN -> starts_no ty rest -> starts_no ty (tokens (u_options ps) ++ rest).
Proof.
  intros H S. destruct ps as [|p ps]; [exact S|]. unfold u_options. rewrite !tokens_cons. simpl.
  eexists _, _. split; [reflexivity|]. split; [reflexivity|]. simpl. congruence.
Qed.

(** ** A field: name, type, comment *)
Lemma y_skip_junk j t l : Forall junk j -> is_block t = false -> ~ In (tk_type t) [CLOSE_BRACE; LINE_COMMENT; NEWLINE] ->
  exists c, (no_comment j -> c = "") /\
  yields (fun n => loop n (fun c => Get (fun t => match t with
    | None => fail_eof
    | Some tok =>
        match tk_type tok with
        | CLOSE_BRACE => Ret (inr None)
        | LINE_COMMENT => Ret (inl (merge_comment "" (tk_text tok)))
        | NEWLINE => Ret (inl c)
        | _ => Unget (Ret (inr (Some c)))
        end
    end)) "") None (j ++ t :: l) (Some c) None (t :: l).
Proof.
  intros J B T.
  assert (forall c0, exists c, (no_comment j -> c = c0) /\ forall o,
    iters (fun (_ : nat) c => Get (fun t => match t with
    | None => fail_eof
    | Some tok =>
        match tk_type tok with
        | CLOSE_BRACE => Ret (inr None)
        | LINE_COMMENT => Ret (inl (merge_comment "" (tk_text tok)))
        | NEWLINE => Ret (inl c)
        | _ => Unget (Ret (inr (Some c)))
        end
    end)) c0 o (j ++ t :: l) (Some c) None (t :: l)) as H.
  { induction J as [|x j Hx J IH]; intros c0.
    - exists c0. split; [reflexivity|]. intros o. simpl. apply it_stop. apply y_get; [exact B|].
      destruct (tk_type t) eqn:E; try (exfalso; apply T; simpl; tauto); (apply y_unget; [exact B|apply y_ret]).
    - pose proof (junk_type _ Hx) as Bx. destruct Hx as [Hx|Hx].
      + destruct (IH c0) as (c & H1 & H2). exists c. split; [intros N; inversion N; auto|]. intros o. simpl.
        eapply it_next; [apply y_get; [exact Bx|]; rewrite Hx; apply y_ret|]. apply H2.
      + destruct (IH (merge_comment "" (tk_text x))) as (c & H1 & H2). exists c.
        split; [intros N; inversion N; congruence|]. intros o. simpl.
        eapply it_next; [apply y_get; [exact Bx|]; rewrite Hx; apply y_ret|]. apply H2. }
  destruct (H "") as (c & H1 & H2). exists c. split; [exact H1|]. apply (y_loop (fun _ c => _)). apply H2.
Qed.
(** the braced kinds, once known, are read like this *)
Definition entry_toks (name : string) (spec : list piece) (com : option string) : list token :=
  mkTok SYMBOL name :: tokens spec ++ com_toks com ++ [newline_tok].
Definition entry_comment (com : option string) : string := match com with Some c => trim_space c | None => "" end.
Lemma eos_entry com : eos_comment "" com = entry_comment com.
Proof. destruct com as [c|]; [apply merge_left_id|reflexivity]. Qed.
Lemma entry_flat ts indent req a name com j rest : writable ts -> braced (ts_type ts) = false -> annos_ok a -> Forall junk j ->
  exists c, (no_comment j -> c = entry_comment com) /\
    yields (fun n => parse_struct_field X n (type_spec_elements X n)) None
         (j ++ entry_toks name (u_spec ts (f_opts req a) indent) com ++ rest)
         (Some (mkField name c a req VNil (kept ts))) None rest.
Proof.
  intros Wr B A J. unfold entry_toks. simpl ((_ :: _) ++ rest).
  destruct (y_skip_junk j (mkTok SYMBOL name) ((tokens (u_spec ts (f_opts req a) indent) ++ com_toks com ++ [newline_tok]) ++ rest) J eq_refl)
    as (c0 & C0 & Y0); [simpl; intros [H|[H|[H|[]]]]; discriminate|].
  destruct (wlims_fold ts req a Wr B) as (o & Ho & K1 & K2 & K3 & K4 & _).
  exists (eos_comment (merge_comment c0 (merge_comment c0 "")) com). split.
  { intros N. rewrite (C0 N). apply eos_entry. }
  unfold parse_struct_field. ybind; [exact Y0|]. cbv beta iota. ybind; [apply y_identifier|]. apply y_weak_l.
  rewrite u_spec_flat by exact B. rewrite tokens_app. rewrite <- !app_assoc. simpl ([newline_tok] ++ rest).
  ybind.
  { unfold parse_type_spec. ybind; [apply elems_flat; [exact B|]|].
    - apply starts_options; [discriminate|]. apply starts_eos; discriminate.
    - rewrite type_spec_flat by assumption. cbn [bind]. cbn [te_options te_comment te_of]. apply y_ret. }
  cbv beta iota. change (ts_type (ts0_of ts)) with (ts_type ts).
  ybind.
  { apply (y_options (field_acceptable (ts_type ts)) _ (f_wopts req a ++ wlims ts)).
    - apply Forall2_app.
      + apply f_opts_items; [|exact A]. apply field_allows_same. left. reflexivity.
      + apply lims_items; auto. intros x Hx. apply field_allows_same. right. right. exact Hx.
    - apply starts_eos; discriminate. }
  ybind; [apply y_eos|]. cbv beta iota. eapply y_weak_r.
  rewrite fold_left_app, f_wopts_fold by exact A. rewrite Ho, K1, K2, K3, K4. apply y_ret.
Qed.

(** ** Types with braces *)
Definition te_spec (t : string) (fs : option (list fielddef)) (els : list enumelt) : typespec :=
  mkTS t "" None None None (opt_list fs) els None None "" "" [] "" "" "".
(** reading a braced type with what follows it *)
Definition braced_reads (ts : typespec) : Prop :=
  forall indent opts com rest, exists fs els c j,
    Forall junk j /\ bare (te_spec (ts_type ts) fs els) = bare (kept ts)
    /\ (tidy ts -> te_spec (ts_type ts) fs els = kept ts)
    /\ ((empty_struct ts -> com = None) -> c = entry_comment com /\ no_comment j)
    /\ yields (fun n => type_spec_elements X n) None (tokens (u_spec ts opts indent) ++ com_toks com ++ newline_tok :: rest)
         (mkTE (ts_type ts) None fs els no_options c) None (newline_tok :: j ++ rest).
(** reading an entry of a struct or union with the type [ts] *)
Definition entry_reads (ts : typespec) : Prop :=
  forall indent req a name com j rest, annos_ok a -> Forall junk j ->
  exists c ts' j', Forall junk j' /\ bare ts' = bare (kept ts)
    /\ (tidy ts -> no_comment j -> (empty_struct ts -> com = None) -> ts' = kept ts /\ c = entry_comment com /\ no_comment j')
    /\ yields (fun n => parse_struct_field X n (type_spec_elements X n)) None
         (j ++ entry_toks name (u_spec ts (f_opts req a) indent) com ++ rest)
         (Some (mkField name c (if braced (ts_type ts) then [] else a) (if braced (ts_type ts) then false else req) VNil ts'))
         None (j' ++ rest).
Lemma braced_cases t : braced t = true -> t = "Enum" \/ t = "Struct" \/ t = "Union".
Proof. intros B. apply str_mem_In in B. simpl in B. destruct B as [<- |[<- |[<- |[]]]]; auto. Qed.
Lemma y_no_options acc l : starts_no OPEN_PAREN l -> yields (fun n => parse_options X n acc) None l no_options None l.
Proof. intros H. exact (y_options acc [] [] l ltac:(constructor) H). Qed.
Lemma entry_braced ts : braced (ts_type ts) = true -> braced_reads ts -> entry_reads ts.
Proof.
  intros B BR indent req a name com j rest A J. unfold entry_toks. simpl ((_ :: _) ++ rest).
  destruct (y_skip_junk j (mkTok SYMBOL name) ((tokens (u_spec ts (f_opts req a) indent) ++ com_toks com ++ [newline_tok]) ++ rest) J eq_refl)
    as (c0 & C0 & Y0); [simpl; intros [H|[H|[H|[]]]]; discriminate|].
  destruct (BR indent (f_opts req a) com rest) as (fs & els & c & j' & J' & K & T & C & Y).
  exists (merge_comment c0 (merge_comment c0 c)), (te_spec (ts_type ts) fs els), j'.
  split; [exact J'|]. split; [exact K|]. split.
  { intros T1 N E. destruct (C E) as (-> & NJ). split; [exact (T T1)|]. split; [|exact NJ]. rewrite (C0 N).
    rewrite !merge_left_id. destruct com as [x|]; [|reflexivity]. simpl. rewrite !trim_idem. reflexivity. }
  rewrite B. unfold parse_struct_field. ybind; [exact Y0|]. cbv beta iota. ybind; [apply y_identifier|]. apply y_weak_l.
  rewrite <- !app_assoc. simpl ([newline_tok] ++ rest).
  ybind.
  { unfold parse_type_spec. ybind; [exact Y|].
    assert (type_spec_of (mkTE (ts_type ts) None fs els no_options c) = Ret (te_spec (ts_type ts) fs els)) as ->.
    { unfold type_spec_of, te_spec. simpl. destruct (braced_cases _ B) as [-> |[-> | ->]]; reflexivity. }
    cbn [bind]. cbn [te_options te_comment]. apply y_ret. }
  cbv beta iota. ybind.
  { apply y_no_options. eexists _, _. split; [reflexivity|]. split; [reflexivity|]. discriminate. }
  ybind; [exact (y_eos _ None _)|]. cbv beta iota. eapply y_weak_r. apply y_ret.
Qed.
Lemma entry_any ts : writable ts -> (braced (ts_type ts) = true -> braced_reads ts) -> entry_reads ts.
Proof.
  intros Wr BR. destruct (braced (ts_type ts)) eqn:B; [apply entry_braced; auto|].
  intros indent req a name com j rest A J.
  destruct (entry_flat ts indent req a name com j rest Wr B A J) as (c & C & Y).
  exists c, (kept ts), []. split; [constructor|]. split; [reflexivity|]. split.
  - intros _ N _. split; [reflexivity|]. split; [exact (C N)|constructor].
  - rewrite B. exact Y.
Qed.

End U.
