(** The text that is written scans as the tokens it was made from. *)
From Coq Require Import Permutation.
From Verif Require Import GoStr Outcome Value Schema Scalars Time TimeFacts Misc MiscFacts Model Scan Parser Lex
  SpecModel SpecMisc SpecParser SpecOptions Unparser SpecUnparse UnparseFacts UnparseBlocks UnparseValues UnparseComments UnparseOps UnparseHttp.

(** ** One piece *)
Definition stops (f : ascii -> bool) (t : string) : Prop := match t with "" => True | String c _ => f c = false end.
Definition numeral (s : string) : Prop :=
  exists c r, s = String c r /\ (is_digit c = true \/ c = "-"%char) /\ forall x, has_char x s -> num_char x = true.
Definition line_end (t : string) : Prop := match t with "" => True | String c _ => c = nl_char end.
Definition piece_ok (p : piece) (t : string) : Prop :=
  match p with
  | W s => identifier s /\ stops word_char t
  | N s => numeral s /\ stops num_char t
  | Q _ | J _ | NL => True
  | R s => plain s
  | P ty => punct_text ty <> ""
  | C s => one_line_text s /\ line_end t
  | Sp s => forall c, has_char c s -> c = " "%char
  end.
Definition lexes (s : string) (l : list token) : Prop := forall f, String.length s <= f -> lex_ f s = l.
Lemma len_app a b : String.length (a +++ b) = String.length a + String.length b.
Proof. induction a; simpl; congruence. Qed.
Lemma span_all f s t : (forall x, has_char x s -> f x = true) -> stops f t -> span f (s +++ t) = (s, t).
Proof.
  induction s as [|c s IH]; intros H S.
  - destruct t as [|c t]; [reflexivity|]. simpl in *. rewrite S. reflexivity.
  - simpl. rewrite (H c) by (apply has_char_cons; auto). rewrite IH; [reflexivity| |exact S]. intros x Hx. apply H, has_char_cons. auto.
Qed.
Lemma quoted_go c r : quoted (go_escape c +++ r) = let '(a, b) := quoted r in (go_escape c +++ a, b).
Proof. destruct c as [[] [] [] [] [] [] [] []]; cbv -[quoted append]; cbn; destruct (quoted r); reflexivity. Qed.
Lemma quoted_json c r : quoted (json_escape c +++ r) = let '(a, b) := quoted r in (json_escape c +++ a, b).
Proof. destruct c as [[] [] [] [] [] [] [] []]; cbv -[quoted append]; cbn; destruct (quoted r); reflexivity. Qed.
Lemma quoted_escape esc : (forall c r, quoted (esc c +++ r) = let '(a, b) := quoted r in (esc c +++ a, b)) ->
  forall s t, quoted (escape esc s +++ quot +++ t) = (escape esc s, t).
Proof.
  intros H. induction s as [|c s IH]; intros t; [reflexivity|]. cbn [escape]. rewrite append_assoc, H, IH. reflexivity.
Qed.
Lemma quoted_plain s t : plain s -> quoted (s +++ quot +++ t) = (s, t).
Proof. intros H. rewrite <- (plain_escape s H). apply quoted_escape, quoted_go. Qed.
Lemma lex_string s t l : lexes t l -> (forall u, quoted (s +++ quot +++ u) = (s, u)) -> lexes (quot +++ s +++ quot +++ t) (mkTok STRING s :: l).
Proof.
  intros H Q f Hf. rewrite !len_app in Hf. change (String.length quot) with 1 in Hf. destruct f as [|f]; [lia|].
  change (quot +++ s +++ quot +++ t) with (String """" (s +++ quot +++ t)). cbn [lex_].
  change (Ascii.eqb """" nl_char) with false. change (Ascii.eqb """" " ") with false. change (Ascii.eqb """" """") with true. cbv iota.
  rewrite Q. rewrite H by lia. reflexivity.
Qed.
Lemma ch_in_spec lo hi c : nat_of_ascii lo <= nat_of_ascii c <= nat_of_ascii hi -> ch_in lo hi c = true.
Proof. intros [A B]. unfold ch_in. rewrite (proj2 (Nat.leb_le _ _) A), (proj2 (Nat.leb_le _ _) B). reflexivity. Qed.
Lemma letter_start c : letter c -> word_start c = true.
Proof.
  unfold letter, upper_letter, lower_letter, word_start. intros [H|H].
  - rewrite ch_in_spec; [reflexivity|exact H].
  - rewrite (ch_in_spec "A" "Z"); [|exact H]. rewrite orb_true_r. reflexivity.
Qed.
Lemma digit_is c : SpecMisc.digit c -> is_digit c = true.
Proof. intros H. apply ch_in_spec, H. Qed.
Lemma identifier_word s : identifier s -> exists c r, s = String c r /\ letter c /\ forall x, has_char x s -> word_char x = true.
Proof.
  intros (c & r & -> & L & H). exists c, r. split; [reflexivity|split; [exact L|]]. intros x Hx. apply has_char_cons in Hx. unfold word_char.
  destruct Hx as [Hx|Hx].
  - subst x. rewrite letter_start by exact L. reflexivity.
  - destruct (H x Hx) as [K|[K|K]].
    + rewrite letter_start by exact K. reflexivity.
    + rewrite digit_is by exact K. apply orb_true_r.
    + subst x. reflexivity.
Qed.
Lemma letter_not c : letter c -> Ascii.eqb c nl_char = false /\ Ascii.eqb c " " = false /\ Ascii.eqb c """" = false /\ Ascii.eqb c "/" = false.
Proof.
  intros H. repeat split; apply Ascii.eqb_neq; intros ->; unfold letter, upper_letter, lower_letter in H; vm_compute in H; lia.
Qed.
Lemma no_slash c s : Ascii.eqb c "/" = false -> has_prefix "//" (String c s) = false /\ has_prefix "/*" (String c s) = false.
Proof. intros H. rewrite Ascii.eqb_sym in H. cbn [has_prefix]. rewrite H. split; reflexivity. Qed.
Lemma lex_word s t l : lexes t l -> identifier s -> stops word_char t -> lexes (s +++ t) (mkTok SYMBOL s :: l).
Proof.
  intros H I S f Hf. destruct (identifier_word s I) as (c & r & -> & L & A). destruct (letter_not c L) as (E1 & E2 & E3 & E4).
  rewrite len_app in Hf. destruct f as [|f]; [simpl in Hf; lia|].
  change (String c r +++ t) with (String c (r +++ t)). cbn [lex_]. rewrite E1, E2, E3.
  destruct (no_slash c (r +++ t) E4) as [F1 F2]. rewrite F1, F2, (letter_start c L).
  change (String c (r +++ t)) with (String c r +++ t). rewrite (span_all _ _ _ A S). rewrite H; [reflexivity|]. simpl in Hf. lia.
Qed.
Lemma digit_not c : is_digit c = true \/ c = "-"%char ->
  Ascii.eqb c nl_char = false /\ Ascii.eqb c " " = false /\ Ascii.eqb c """" = false /\ Ascii.eqb c "/" = false
  /\ word_start c = false /\ is_digit c || Ascii.eqb c "-" = true.
Proof.
  intros [H| ->]; [|vm_compute; tauto]. rewrite H. unfold is_digit, ch_in in H. apply andb_true_iff in H. destruct H as [A B].
  apply Nat.leb_le in A, B. change (nat_of_ascii "0") with 48 in A. change (nat_of_ascii "9") with 57 in B.
  repeat split; try (apply Ascii.eqb_neq; intros ->; vm_compute in A, B; lia).
  unfold word_start, ch_in. change (nat_of_ascii "a") with 97. change (nat_of_ascii "A") with 65.
  rewrite (proj2 (Nat.leb_gt 97 _)) by lia. rewrite (proj2 (Nat.leb_gt 65 _)) by lia. simpl.
  apply Ascii.eqb_neq. intros ->. vm_compute in B. lia.
Qed.
Lemma lex_number s t l : lexes t l -> numeral s -> stops num_char t -> lexes (s +++ t) (mkTok NUMBER s :: l).
Proof.
  intros H (c & r & -> & D & A) S f Hf. destruct (digit_not c D) as (E1 & E2 & E3 & E4 & E5 & E6).
  rewrite len_app in Hf. destruct f as [|f]; [simpl in Hf; lia|].
  change (String c r +++ t) with (String c (r +++ t)). cbn [lex_]. rewrite E1, E2, E3.
  destruct (no_slash c (r +++ t) E4) as [F1 F2]. rewrite F1, F2, E5, E6.
  change (String c (r +++ t)) with (String c r +++ t). rewrite (span_all _ _ _ A S). rewrite H; [reflexivity|]. simpl in Hf. lia.
Qed.
Lemma lex_line s t l : lexes t l -> one_line_text s -> line_end t -> lexes ("//" +++ s +++ t) (mkTok LINE_COMMENT s :: l).
Proof.
  intros H O S f Hf. rewrite !len_app in Hf. change (String.length "//") with 2 in Hf. destruct f as [|f]; [lia|].
  change ("//" +++ s +++ t) with (String "/" (String "/" (s +++ t))). cbn [lex_].
  change (Ascii.eqb "/" nl_char) with false. change (Ascii.eqb "/" " ") with false. change (Ascii.eqb "/" """") with false. cbv iota.
  change (has_prefix "//" (String "/" (String "/" (s +++ t)))) with (has_prefix "" (s +++ t)).
  replace (has_prefix "" (s +++ t)) with true by (destruct (s +++ t); reflexivity).
  change (String "/" (String "/" (s +++ t))) with (("//" +++ s) +++ t).
  rewrite (span_all (fun c => negb (Ascii.eqb c nl_char)) ("//" +++ s) t).
  - cbv iota beta. change ("//" +++ s) with (String "/" (String "/" s)). cbv iota. rewrite H; [reflexivity|lia].
  - intros x Hx. apply negb_true_iff, Ascii.eqb_neq. intros ->.
    change ("//" +++ s) with (String "/" (String "/" s)) in Hx. apply has_char_cons in Hx. destruct Hx as [Hx|Hx]; [discriminate|].
    apply has_char_cons in Hx. destruct Hx as [Hx|Hx]; [discriminate|]. exact (O Hx).
  - destruct t as [|c t]; [exact I|]. simpl in *. subst c. reflexivity.
Qed.
Lemma lex_blanks s t l : lexes t l -> (forall c, has_char c s -> c = " "%char) -> lexes (s +++ t) l.
Proof.
  intros H. induction s as [|c s IH]; intros B; [exact H|]. intros f Hf.
  assert (c = " "%char) as -> by (apply B, has_char_cons; auto).
  destruct f as [|f]; [simpl in Hf; lia|]. change (String " " s +++ t) with (String " " (s +++ t)). cbn [lex_].
  change (Ascii.eqb " " nl_char) with false. change (Ascii.eqb " " " ") with true. cbv iota.
  apply IH; [|simpl in Hf; lia]. intros c Hc. apply B, has_char_cons. auto.
Qed.
Lemma lex_newline t l : lexes t l -> lexes (chr 10 +++ t) (mkTok NEWLINE (chr 10) :: l).
Proof.
  intros H f Hf. rewrite len_app in Hf. change (String.length (chr 10)) with 1 in Hf. destruct f as [|f]; [lia|].
  change (chr 10 +++ t) with (String nl_char t). cbn [lex_]. change (Ascii.eqb nl_char nl_char) with true. cbv iota. rewrite H by lia. reflexivity.
Qed.
Lemma lex_punct ty t l : lexes t l -> punct_text ty <> "" -> lexes (punct_text ty +++ t) (mkTok ty (punct_text ty) :: l).
Proof.
  intros H N f Hf. destruct f as [|f]; [destruct ty; simpl in *; try lia; contradiction|].
  destruct ty; try contradiction; cbn in Hf |- *; rewrite H by lia; reflexivity.
Qed.
Lemma lex_piece p t l : lexes t l -> piece_ok p t -> lexes (piece_text p +++ t) (piece_tokens p ++ l).
Proof.
  intros H O. destruct p as [s|s|s|s|s|ty|s|s|]; cbn [piece_text piece_tokens piece_ok app] in *.
  - apply lex_word; tauto.
  - apply lex_number; tauto.
  - rewrite !append_assoc. apply lex_string; [exact H|]. intros u. apply quoted_escape, quoted_go.
  - rewrite !append_assoc. apply lex_string; [exact H|]. intros u. apply quoted_escape, quoted_json.
  - rewrite !append_assoc. apply lex_string; [exact H|]. intros u. apply quoted_plain, O.
  - replace (match punct_text ty with "" => [] | s => [mkTok ty s] end) with [mkTok ty (punct_text ty)] by (destruct ty; try reflexivity; contradiction).
    apply lex_punct; assumption.
  - rewrite append_assoc. apply lex_line; tauto.
  - apply lex_blanks; assumption.
  - apply lex_newline, H.
Qed.

(** ** Many pieces *)
(** each piece is followed by something that ends it; [k]: the text behind the last *)
Fixpoint sepk (l : list piece) (k : string) : Prop :=
  match l with [] => True | p :: r => piece_ok p (text r +++ k) /\ sepk r k end.
Lemma text_app a b : text (a ++ b) = text a +++ text b.
Proof. induction a as [|p a IH]; [reflexivity|]. cbn [text app]. rewrite IH, append_assoc. reflexivity. Qed.
Lemma lexes_nil : lexes "" [].
Proof. intros [|f] _; reflexivity. Qed.
Lemma sep_lex l : sepk l "" -> lex (text l) = tokens l.
Proof.
  intros H. unfold lex. cut (lexes (text l) (tokens l)); [intros K; apply K; lia|].
  induction l as [|p l IH]; [apply lexes_nil|]. destruct H as [A B]. cbn [text]. change (tokens (p :: l)) with (piece_tokens p ++ tokens l).
  apply lex_piece; [apply IH, B|]. rewrite append_nil_r in A. exact A.
Qed.
Lemma sepk_app a b k : sepk a (text b +++ k) -> sepk b k -> sepk (a ++ b) k.
Proof.
  intros A B. induction a as [|p a IH]; [exact B|]. destruct A as [A1 A2]. cbn [app sepk]. split; [|apply IH, A2].
  rewrite text_app, append_assoc. exact A1.
Qed.
(** the text begins with something no word and no number goes on with *)
Definition calm (k : string) : Prop := stops word_char k /\ stops num_char k.
Definition sep (l : list piece) : Prop := forall k, sepk l k.
Definition sepc (l : list piece) : Prop := forall k, calm k -> sepk l k.
Lemma sep_c l : sep l -> sepc l. Proof. intros H k _. apply H. Qed.
Lemma sep_app a b : sep a -> sep b -> sep (a ++ b).
Proof. intros A B k. apply sepk_app; [apply A|apply B]. Qed.
Lemma sep_nil : sep []. Proof. intros k. exact I. Qed.
Lemma sep_flat {A} (f : A -> list piece) l : Forall (fun a => sep (f a)) l -> sep (flat_map f l).
Proof. induction 1; [apply sep_nil|]. cbn [flat_map]. apply sep_app; assumption. Qed.
Lemma calm_app b k : calm (text b) -> text b <> "" -> calm (text b +++ k).
Proof. destruct (text b); [contradiction|]. intros H _. exact H. Qed.
Lemma sep_snoc_c l p : sepc l -> (forall k, piece_ok p k) -> (forall k, calm (piece_text p +++ k)) -> sep (l ++ [p]).
Proof. intros H O K k. apply sepk_app; [apply H; cbn [text]; rewrite append_nil_r; apply K|]. split; [apply O|exact I]. Qed.
Lemma sep_join sp l : sep sp -> (forall k, calm (text sp +++ k)) -> Forall sepc l -> sepc (join_pieces sp l).
Proof.
  intros H K F. induction F as [|a l A F IH]; [intros k _; exact I|]. destruct l as [|b l]; [exact A|].
  change (join_pieces sp (a :: b :: l)) with (a ++ sp ++ join_pieces sp (b :: l)). intros k Hk.
  apply sepk_app; [apply A; rewrite text_app, append_assoc; apply K|]. apply sepk_app; [apply H|apply IH, Hk].
Qed.
Definition blanks (s : string) : Prop := forall c, has_char c s -> c = " "%char.
Lemma blanks_app a b : blanks a -> blanks b -> blanks (a +++ b).
Proof.
  intros A B. induction a as [|x a IH]; [exact B|]. intros c Hc. change (String x a +++ b) with (String x (a +++ b)) in Hc.
  apply has_char_cons in Hc. destruct Hc as [-> |Hc]; [apply A, has_char_cons; auto|].
  apply IH; [|exact Hc]. intros y Hy. apply A, has_char_cons. auto.
Qed.
Lemma no_char_empty c : ~ has_char c "".
Proof. intros (a & b & E). destruct a; discriminate E. Qed.
Lemma blanks_nil : blanks "". Proof. intros c H. destruct (no_char_empty c H). Qed.
Lemma blanks_cons s : blanks s -> blanks (String " " s).
Proof. intros H c Hc. apply has_char_cons in Hc. destruct Hc as [Hc|Hc]; [exact Hc|apply H, Hc]. Qed.
Lemma spaces_blanks n : blanks (spaces n).
Proof. induction n; [apply blanks_nil|apply blanks_cons; assumption]. Qed.
Lemma indent_blanks : blanks indent_amount.
Proof. apply (spaces_blanks 4). Qed.
Lemma calm_now c s : word_char c = false -> num_char c = false -> calm (String c s).
Proof. intros A B. split; assumption. Qed.
Ltac calm_tac := first [assumption | cbn; split; reflexivity | split; reflexivity].
(** pieces one by one *)
Ltac sk := match goal with
  | |- sepk [] _ => exact I
  | |- sepk (_ :: _) _ => split; [cbn [piece_ok]; try exact I; try discriminate; try (apply (spaces_blanks 1)); try assumption; try apply indent_blanks|]
  end.
Lemma u_anno_sep a : identifier (fst a) -> sep (u_anno a).
Proof. intros H k. unfold u_anno. repeat sk. split; [exact H|reflexivity]. Qed.
Lemma u_options_sep opts : Forall sepc opts -> sep (u_options opts).
Proof.
  intros H. destruct opts as [|o os]; [apply sep_nil|]. unfold u_options. generalize dependent (o :: os). intros l H k.
  sk. sk. apply sepk_app; [apply sep_join; [|intros; calm_tac|exact H|calm_tac]|repeat sk].
  intros k'. repeat sk.
Qed.
Lemma annos_sepc a : annos_ok a -> Forall sepc (map u_anno a).
Proof.
  intros [_ H]. apply Forall_map, Forall_forall. intros [x v] Hx. apply sep_c, u_anno_sep. apply (H _ _ Hx).
Qed.
Lemma u_annos_sep a : annos_ok a -> sep (u_annos a).
Proof. intros H. apply u_options_sep, annos_sepc, H. Qed.
(** what follows a list of options *)
Lemma calm_options opts r k : calm (text r +++ k) -> calm (text (u_options opts ++ r) +++ k).
Proof. intros H. destruct opts; [exact H|]. calm_tac. Qed.
Lemma one_line_cat a b : one_line_text a -> one_line_text b -> one_line_text (a +++ b).
Proof.
  intros A B. induction a as [|x a IH]; [exact B|]. intros Hc. change (String x a +++ b) with (String x (a +++ b)) in Hc.
  apply has_char_cons in Hc. destruct Hc as [Hc|Hc]; [apply A, has_char_cons; auto|].
  apply IH; [|exact Hc]. intros Hy. apply A, has_char_cons. auto.
Qed.
Lemma one_line_blank : one_line_text " ".
Proof. intros H. apply has_char_cons in H. destruct H as [H|H]; [discriminate|]. destruct (no_char_empty _ H). Qed.
Lemma one_line_empty : one_line_text "". Proof. apply no_char_empty. Qed.
Lemma calm_trailing c r k : calm (text r +++ k) -> calm (text (u_trailing c ++ r) +++ k).
Proof. intros H. unfold u_trailing. destruct (c =?s ""); [exact H|]. calm_tac. Qed.
Lemma trailing_sep c r : one_line_text c -> sep (NL :: r) -> sep (u_trailing c ++ NL :: r).
Proof.
  intros O H k. unfold u_trailing. destruct (c =?s ""); [apply H|]. cbn [app]. sk. sk; [|apply H].
  split; [apply one_line_cat; [apply one_line_blank|exact O]|reflexivity].
Qed.
(** ** Comments *)
Lemma has_smem c s : has_char c s -> smem c s = true.
Proof. intros (a & b & ->). rewrite smem_app. cbn [smem]. rewrite Ascii.eqb_refl. apply orb_true_r. Qed.
Lemma split_one_line c s : In s (split "010" c) -> one_line_text s.
Proof. intros H Hc. apply has_smem in Hc. eapply split_no_sep in H. congruence. Qed.
Lemma smem_one_line s : smem "010" s = false -> one_line_text s.
Proof. intros H Hc. apply has_smem in Hc. congruence. Qed.
Lemma no_nl_one_line s : contains nl s = false -> one_line_text s.
Proof.
  intros H (a & b & ->). assert (K : contains nl (a +++ String "010" b) = true); [|congruence].
  apply contains_spec. exists a, b. reflexivity.
Qed.
Lemma split_blank_line c s : one_line_text c -> In s (split " " c) -> one_line_text s.
Proof.
  intros O H (a & b & ->). apply O. rewrite <- (join_split " " c).
  induction (split " " c) as [|x l IH]; [destruct H|]. destruct H as [-> |H].
  - destruct l as [|y l]; [exists a, b; reflexivity|]. exists a, (b +++ " " +++ join " " (y :: l)).
    change (join " " ((a +++ String "010" b) :: y :: l)) with ((a +++ String "010" b) +++ " " +++ join " " (y :: l)).
    rewrite append_assoc. reflexivity.
  - destruct (IH H) as (a' & b' & E). destruct l as [|y l]; [destruct H|]. exists (x +++ " " +++ a'), b'.
    change (join " " (x :: y :: l)) with (x +++ " " +++ join " " (y :: l)). rewrite E, !append_assoc. reflexivity.
Qed.
Definition cur_ok (cur : option string) : Prop := match cur with Some c => one_line_text c | None => True end.
Lemma flush_sep tab cur : blanks tab -> cur_ok cur -> sep (flush tab cur ++ [NL]).
Proof.
  intros B O k. destruct cur as [c|]; cbn [flush app]; repeat sk. split; [exact O|reflexivity].
Qed.
Lemma wrap_sep tab maxcol : blanks tab -> forall toks col cur, Forall one_line_text toks -> cur_ok cur -> sep (u_wrap tab maxcol col cur toks ++ [NL]).
Proof.
  intros B. induction toks as [|t toks IH]; intros col cur F O; [apply flush_sep; assumption|].
  inversion_clear F as [|? ? F1 F2]. cbn [u_wrap]. cbv zeta.
  assert (O1 : one_line_text (" " +++ t)) by (apply one_line_cat; [apply one_line_blank|exact F1]).
  destruct (_ || _).
  - rewrite <- app_assoc. destruct (_ <=? _)%Z.
    + apply sep_app; [apply flush_sep; assumption|apply IH; assumption].
    + apply IH; assumption.
  - apply IH; [exact F2|]. destruct cur as [c|]; [|exact I]. apply one_line_cat; assumption.
Qed.
Lemma u_comment_sep indent c maxcol pad : blanks indent -> sep (u_comment indent c maxcol pad).
Proof.
  intros B. unfold u_comment. cbv zeta. destruct (contains nl c) eqn:E.
  - rewrite andb_false_r. apply sep_flat, Forall_forall. intros l Hl k. repeat sk; [apply spaces_blanks|].
    split; [|reflexivity]. apply one_line_cat; [apply one_line_blank|]. eapply split_one_line, Hl.
  - assert (O := no_nl_one_line _ E). rewrite andb_true_r. destruct (_ <=? _)%Z.
    + intros k. repeat sk. split; [|reflexivity]. apply one_line_cat; [apply one_line_blank|exact O].
    + assert (Pd : sep (if pad then [Sp (spaces (String.length indent)); C ""; NL] else [])).
      { destruct pad; [|apply sep_nil]. intros k. repeat sk; [apply spaces_blanks|]. split; [apply one_line_empty|reflexivity]. }
      apply sep_app; [exact Pd|]. apply sep_app; [|exact Pd]. apply wrap_sep; [apply spaces_blanks| |exact I].
      apply Forall_forall. intros w Hw. eapply split_blank_line; [exact O|exact Hw].
Qed.
Lemma block_comment_sep c : sep (u_block_comment c).
Proof. unfold u_block_comment. destruct (c =?s ""); [apply sep_nil|]. apply u_comment_sep, blanks_nil. Qed.
Lemma sep_tail p l : sep (p :: l) -> sep l.
Proof. intros H k. exact (proj2 (H k)). Qed.
Lemma u_comment3_sep c : sep (u_comment3 c).
Proof.
  unfold u_comment3. assert (H := u_comment_sep "   " c 100 false (spaces_blanks 3)).
  apply sep_app; [|intros k; repeat sk; apply (spaces_blanks 3)].
  destruct (u_comment "   " c 100 false) as [|p l]; [exact H|]. destruct p; try exact H; [apply sep_tail in H; exact H|].
  destruct l as [|q l]; [exact H|]. destruct q; try exact H. apply sep_tail, sep_tail in H. intros k. sk. apply H.
Qed.

(** ** Types *)
Section L.
Variable X : ext.
Variable dec_text : decimal -> string.
Hypothesis number_texts : forall d, x_decimal X (dec_text d) = Some d -> number_text (dec_text d).
Lemma numerals d : x_decimal X (dec_text d) = Some d -> numeral (dec_text d).
Proof.
  intros H. destruct (number_texts d H) as (c & r & E & D & A). exists c, r. split; [exact E|split].
  - destruct D as [D|D]; [left; apply digit_is, D|right; exact D].
  - intros x Hx. unfold num_char. destruct (A x Hx) as [K|[K|K]]; [rewrite digit_is by exact K; reflexivity| |]; subst x; reflexivity.
Qed.
Notation writable := (writable X dec_text).
Notation writable_value := (writable_value X dec_text).
Notation u_spec := (u_spec dec_text).
Notation u_json := (u_json dec_text).
Notation u_pretty := (u_pretty dec_text).
Lemma digits_chars s n : SpecTime.digits s n -> s <> "" /\ forall c, has_char c s -> is_digit c = true.
Proof.
  assert (D : forall c n, (0 <= n < 10)%Z -> Z.of_nat (nat_of_ascii c) = (48 + n)%Z -> is_digit c = true).
  { intros c m A B. apply digit_is. unfold SpecMisc.digit. lia. }
  induction 1 as [c n A B|s m c n H [IH1 IH2] A B].
  - split; [discriminate|]. intros x Hx. apply has_char_cons in Hx. destruct Hx as [-> |Hx]; [eapply D; eassumption|]. destruct (no_char_empty _ Hx).
  - split; [destruct s; discriminate|]. clear IH1. induction s as [|y s IHs].
    + intros x Hx. apply has_char_cons in Hx. destruct Hx as [-> |Hx]; [eapply D; eassumption|]. destruct (no_char_empty _ Hx).
    + intros x Hx. change (String y s +++ String c "") with (String y (s +++ String c "")) in Hx. apply has_char_cons in Hx.
      destruct Hx as [-> |Hx]; [apply IH2, has_char_cons; auto|].
      assert (K : forall c0, has_char c0 s -> is_digit c0 = true) by (intros z Hz; apply IH2, has_char_cons; auto).
      revert x Hx. clear - D A B K. induction s as [|y s IHs]; intros x Hx.
      * apply has_char_cons in Hx. destruct Hx as [-> |Hx]; [eapply D; eassumption|]. destruct (no_char_empty _ Hx).
      * change (String y s +++ String c "") with (String y (s +++ String c "")) in Hx. apply has_char_cons in Hx.
        destruct Hx as [-> |Hx]; [apply K, has_char_cons; auto|]. apply IHs; [|exact Hx]. intros z Hz. apply K, has_char_cons. auto.
Qed.
Lemma digits_numeral s n : SpecTime.digits s n -> numeral s.
Proof.
  intros H. destruct (digits_chars s n H) as [A B]. destruct s as [|c r]; [congruence|]. exists c, r. split; [reflexivity|].
  split; [left; apply B, has_char_cons; auto|]. intros x Hx. unfold num_char. rewrite B by exact Hx. reflexivity.
Qed.
Lemma fmt_numeral z : numeral (fmt_d z).
Proof.
  destruct (Z.ltb_spec z 0) as [L|L]; [|eapply digits_numeral, fmt_d_digits; lia].
  assert (fmt_d z = String "-" (fmt_d (- z))) as ->.
  { unfold fmt_d. destruct (Z.ltb_spec z 0); [|lia]. destruct (Z.ltb_spec (- z) 0); [lia|]. reflexivity. }
  destruct (digits_chars (fmt_d (- z)) (- z)) as [A B]; [apply fmt_d_digits; lia|]. exists "-"%char, (fmt_d (- z)).
  split; [reflexivity|split; [auto|]]. intros x Hx. apply has_char_cons in Hx. destruct Hx as [-> |Hx]; [reflexivity|].
  unfold num_char. rewrite B by exact Hx. reflexivity.
Qed.
Lemma u_int_sepc name z : identifier name -> sepc (u_int name z).
Proof. intros H k [A B]. unfold u_int. repeat sk; [split; [exact H|reflexivity]|]. split; [apply fmt_numeral|exact B]. Qed.
Lemma u_dec_sepc name d : identifier name -> x_decimal X (dec_text d) = Some d -> sepc (u_dec dec_text name d).
Proof. intros H D k [A B]. unfold u_dec. repeat sk; [split; [exact H|reflexivity]|]. split; [apply numerals, D|exact B]. Qed.
Definition letter_b (c : ascii) : bool := ch_in "a" "z" c || ch_in "A" "Z" c.
Definition word_b (s : string) : bool :=
  match s with String c r => letter_b c && forallb word_char (list_ascii_of_string r) | _ => false end.
Lemma ch_in_iff lo hi c : ch_in lo hi c = true -> nat_of_ascii lo <= nat_of_ascii c <= nat_of_ascii hi.
Proof. unfold ch_in. intros H. apply andb_true_iff in H. destruct H as [A B]. apply Nat.leb_le in A, B. lia. Qed.
Lemma letter_b_spec c : letter_b c = true -> letter c.
Proof. intros H. apply orb_true_iff in H. destruct H as [H|H]; apply ch_in_iff in H; [left|right]; exact H. Qed.
Lemma has_char_list c s : has_char c s <-> In c (list_ascii_of_string s).
Proof.
  induction s as [|x s IH]; [split; [apply no_char_empty|intros []]|]. rewrite has_char_cons, IH. cbn [list_ascii_of_string In].
  split; intros [H|H]; auto.
Qed.
Lemma word_id s : word_b s = true -> identifier s.
Proof.
  destruct s as [|c r]; [discriminate|]. unfold word_b. intros H. apply andb_true_iff in H. destruct H as [A B].
  exists c, r. split; [reflexivity|split; [apply letter_b_spec, A|]]. intros x Hx. apply has_char_list in Hx.
  rewrite forallb_forall in B. specialize (B x Hx). unfold word_char, word_start in B.
  apply orb_true_iff in B. destruct B as [B|B]; [apply orb_true_iff in B; destruct B as [B|B]|].
  - left. apply letter_b_spec, B.
  - right; right. apply Ascii.eqb_eq, B.
  - right; left. apply ch_in_iff in B. exact B.
Qed.
Ltac idn := apply word_id; reflexivity.
Ltac one := first [apply Forall_nil | apply Forall_cons; [|apply Forall_nil]].
Lemma u_sizes_sepc ts : Forall sepc (u_sizes ts).
Proof.
  unfold u_sizes. apply Forall_app. split; [destruct (ts_minsize ts)|destruct (ts_maxsize ts)]; one; apply u_int_sepc; idn.
Qed.
Lemma u_strings_sep l : sep (u_strings l).
Proof.
  intros k. unfold u_strings. cbv zeta. sk. assert (D : sep (if 5 <? length l then [NL; Sp "    "] else [])).
  { destruct (_ <? _); intros k'; repeat sk. }
  apply sepk_app; [apply D|]. apply sepk_app.
  - apply sep_join; [intros k'; sk; apply D|intros; calm_tac| |].
    + apply Forall_map, Forall_forall. intros s _ k' _. repeat sk.
    + destruct (_ <? _); calm_tac.
  - destruct (_ <? _); cbn [app]; repeat sk.
Qed.
Lemma values_sepc o : Forall sepc (opt_piece o (fun l => W "values" :: P EQUALS :: u_strings l)).
Proof.
  destruct o as [l|]; one. intros k Hk. sk; [split; [idn|reflexivity]|]. sk. apply u_strings_sep.
Qed.
Lemma pattern_sepc s : Forall sepc (if s =?s "" then [] else [[W "pattern"; P EQUALS; Q s]]).
Proof. destruct (s =?s ""); one. intros k Hk. repeat sk. split; [idn|reflexivity]. Qed.
Lemma dec_sepc name o : identifier name -> reads_back X dec_text o -> Forall sepc (opt_piece o (u_dec dec_text name)).
Proof. intros I H. destruct o as [d|]; one. apply u_dec_sepc; [exact I|apply H; reflexivity]. Qed.
Lemma field_opts_sepc (f : fielddef) : annos_ok (fd_annos f) -> Forall sepc (field_opts f).
Proof.
  intros H. unfold field_opts. apply Forall_app. split; [|apply annos_sepc, H].
  destruct (fd_required f); one. intros k Hk. repeat sk. split; [idn|apply Hk].
Qed.
(** a word, options and what follows *)
Lemma word_options s opts k : identifier s -> Forall sepc opts -> calm k -> sepk (W s :: u_options opts) k.
Proof.
  intros I F K. split; [|apply u_options_sep, F]. split; [exact I|].
  destruct opts; [apply K|reflexivity].
Qed.
Lemma line_sep l c : sepc l -> one_line_text c -> sep (l ++ u_trailing c ++ [NL]).
Proof.
  intros H O k. apply sepk_app; [|apply trailing_sep; [exact O|intros k'; repeat sk]].
  apply H. unfold u_trailing. destruct (c =?s ""); calm_tac.
Qed.
Lemma element_sep indent e : blanks indent -> elt_ok e -> sep (u_element indent e).
Proof.
  intros B (I & A & O) k. unfold u_element. cbn [app]. sk. sk.
  change (W (ee_symbol e) :: u_annos (ee_annos e) ++ u_trailing (ee_comment e) ++ [NL])
    with ((W (ee_symbol e) :: u_options (map u_anno (ee_annos e))) ++ u_trailing (ee_comment e) ++ [NL]).
  apply line_sep; [|exact O]. intros k' Hk. apply word_options; [exact I|apply annos_sepc, A|exact Hk].
Qed.
Lemma entry_line indent name spec c : blanks indent -> identifier name -> sepc spec -> one_line_text c ->
  sep ([Sp indent; Sp indent_amount; W name; Sp " "] ++ spec ++ u_trailing c ++ [NL]).
Proof.
  intros B I H O k. cbn [app]. sk. sk. sk; [split; [exact I|reflexivity]|]. sk. apply line_sep; assumption.
Qed.
Lemma trailing_empty : u_trailing "" = [].
Proof. reflexivity. Qed.
Lemma field_sep blk indent (f : fielddef) spec : blanks indent -> identifier (fd_name f) -> one_line_text (fd_comment f) -> sepc spec ->
  sep (u_field blk indent f spec).
Proof.
  intros B I O H. unfold u_field. apply sep_app; [destruct blk; intros k; repeat sk|].
  apply sep_app; [destruct (_ && _); [apply u_comment_sep, blanks_app; [exact B|apply indent_blanks]|apply sep_nil]|].
  destruct blk; [|apply entry_line; assumption].
  apply (entry_line indent (fd_name f) spec ""); [assumption|assumption|assumption|apply one_line_empty].
Qed.
Lemma variant_sep v spec : identifier (uv_name v) -> one_line_text (uv_comment v) -> sepc spec -> sep (u_variant v spec).
Proof.
  intros I O H. unfold u_variant. cbv zeta. apply sep_app; [destruct (_ && _); [apply u_comment_sep, indent_blanks|apply sep_nil]|].
  destruct (_ <? _)%Z; intros k; cbn [app]; (sk; sk; [split; [exact I|reflexivity]|]; sk).
  - apply (line_sep spec ""); [exact H|apply one_line_empty].
  - apply line_sep; assumption.
Qed.
Lemma lims_sepc ts : writable ts -> braced (ts_type ts) = false -> Forall sepc (lims dec_text ts).
Proof.
  intros Wr B. unfold lims.
  inversion Wr as [ts0 T|ts0 T W1 W2 W3 W4|ts0 T W1 W2|ts0 T W1 W2 W3|ts0 T W1 W2 W3 W4|ts0 T|ts0 T|ts0 W1 T]; subst ts0;
    try (rewrite T in B; discriminate).
  - rewrite T. cbn [String.eqb Ascii.eqb eqb]. change ("String" =?s "String") with true. cbv iota. unfold string_opts.
    rewrite !Forall_app. split; [apply pattern_sepc|split; [apply u_sizes_sepc|apply values_sepc]].
  - assert (str_mem (ts_type ts) numeric_types = true) as M by (apply str_mem_In; exact T).
    destruct (num_cases _ M) as (_ & -> & _). rewrite M. unfold number_opts. apply Forall_app. split; apply dec_sepc; try idn; assumption.
  - rewrite T. apply u_sizes_sepc.
  - rewrite T. apply u_sizes_sepc.
  - pose proof (not_special _ T) as N. rewrite !N by (simpl; auto 20). rewrite (not_special_num _ T). apply Forall_nil.
Qed.
Lemma head_sepc ts : writable ts -> braced (ts_type ts) = false -> sepc (head ts).
Proof.
  intros Wr B k K. unfold head.
  inversion Wr as [ts0 T|ts0 T W1 W2 W3 W4|ts0 T W1 W2|ts0 T W1 W2 W3|ts0 T W1 W2 W3 W4|ts0 T|ts0 T|ts0 W1 T]; subst ts0;
    try (rewrite T in B; discriminate).
  - rewrite T. change (("String" =?s "Array")) with false. change (("String" =?s "Map")) with false. cbv iota; repeat sk. split; [idn|apply K].
  - assert (str_mem (ts_type ts) numeric_types = true) as M by (apply str_mem_In; exact T).
    destruct (num_cases _ M) as (_ & _ & -> & -> & _). cbv iota; repeat sk. split; [|apply K]. unfold number_kinds in T. simpl in T.
    repeat (destruct T as [<- |T]; [idn|]). destruct T.
  - rewrite T. change ("Array" =?s "Array") with true. cbv iota; repeat sk; (split; [first [idn|assumption]|reflexivity]).
  - rewrite T. change ("Map" =?s "Array") with false. change ("Map" =?s "Map") with true. cbv iota; repeat sk; (split; [first [idn|assumption]|reflexivity]).
  - pose proof (not_special _ T) as N. rewrite !N by (simpl; auto 20). cbv iota; repeat sk. split; [exact W1|apply K].
Qed.
Lemma flat_sep ts opts indent : writable ts -> braced (ts_type ts) = false -> Forall sepc opts -> sepc (u_spec ts opts indent).
Proof.
  intros Wr B F k K. rewrite u_spec_flat by exact B. assert (G : Forall sepc (opts ++ lims dec_text ts)) by (apply Forall_app; split; [exact F|apply lims_sepc; assumption]).
  apply sepk_app; [|apply u_options_sep, G]. apply head_sepc; [exact Wr|exact B|].
  destruct (opts ++ lims dec_text ts); [exact K|calm_tac].
Qed.
Lemma spec_enum ts opts indent : ts_type ts = "Enum" -> u_spec ts opts indent =
  [W "Enum"; Sp " "; P OPEN_BRACE; NL] ++ flat_map (u_element indent) (ts_elements ts) ++ [Sp indent; P CLOSE_BRACE].
Proof. intros T. destruct ts; simpl in T; subst; reflexivity. Qed.
Lemma spec_struct ts opts indent : ts_type ts = "Struct" -> u_spec ts opts indent =
  match ts_fields ts with
  | [] => [W "Struct"; NL]
  | fields =>
    let blk := existsb (fun f => (60 <? slen (fd_comment f))%Z) fields in
    [W "Struct"; Sp " "; P OPEN_BRACE; NL]
    ++ flat_map (fun f => u_field blk indent f (u_spec (fd_spec f) (field_opts f) (indent +++ indent_amount))) fields
    ++ [Sp indent; P CLOSE_BRACE]
  end.
Proof. intros T. destruct ts; simpl in T; subst; match goal with |- context [ts_fields (mkTS _ _ _ _ _ ?l _ _ _ _ _ _ _ _ _)] => destruct l end; reflexivity. Qed.
Lemma spec_union ts opts indent : ts_type ts = "Union" -> u_spec ts opts indent =
  [W "Union"; Sp " "; P OPEN_BRACE; NL]
  ++ flat_map (fun v => u_variant v (u_spec (uv_spec v) (map u_anno (uv_annos v)) (indent +++ indent_amount))) (ts_variants ts)
  ++ [P CLOSE_BRACE].
Proof. intros T. destruct ts; simpl in T; subst; reflexivity. Qed.
Lemma spec_sep ts : writable ts -> forall opts indent, blanks indent -> Forall sepc opts -> sepc (u_spec ts opts indent).
Proof.
  induction ts as [ts IF IV] using typespec_ind'. intros Wr opts indent B F.
  destruct (braced (ts_type ts)) eqn:Br; [|apply flat_sep; assumption]. intros k K.
  assert (B' : blanks (indent +++ indent_amount)) by (apply blanks_app; [exact B|apply indent_blanks]).
  inversion Wr as [ts0 T HW|ts0 T|ts0 T|ts0 T|ts0 T|ts0 T HW|ts0 T HW|ts0 T0 T]; subst ts0;
    try (rewrite T in Br; discriminate);
    [|destruct (braced_cases _ Br) as [E|[E|E]]; rewrite E in T; simpl in T; repeat (destruct T as [T|T]; [discriminate|]); destruct T| | |
      destruct (braced_cases _ Br) as [E|[E|E]]; rewrite E in T; exfalso; apply T; simpl; tauto].
  - rewrite spec_enum by exact T. cbn [app]. sk; [split; [idn|reflexivity]|]. sk. sk. sk. apply sepk_app; [|repeat sk].
    apply sep_flat. eapply Forall_impl; [|exact HW]. intros e He. apply element_sep; assumption.
  - rewrite spec_struct by exact T. destruct (ts_fields ts) as [|f0 fs] eqn:EF; [repeat sk; split; [idn|reflexivity]|].
    rewrite <- EF in *. clear f0 fs EF. cbv zeta. cbn [app]. sk; [split; [idn|reflexivity]|]. sk. sk. sk. apply sepk_app; [|repeat sk].
    apply sep_flat. generalize (existsb (fun f : fielddef => (60 <? slen (fd_comment f))%Z) (ts_fields ts)). intros blk.
    rewrite Forall_forall in *. intros f Hf. destruct (HW f Hf) as (H1 & H2 & H3 & H4). apply field_sep; [exact B|exact H1|exact H3|].
    apply IF; [exact Hf|exact H4|exact B'|apply field_opts_sepc, H2].
  - rewrite spec_union by exact T. cbn [app]. sk; [split; [idn|reflexivity]|]. sk. sk. sk. apply sepk_app; [|repeat sk].
    apply sep_flat. rewrite Forall_forall in *. intros v Hv. destruct (HW v Hv) as (H1 & H2 & H3 & H4). apply variant_sep; [exact H1|exact H3|].
    apply IV; [exact Hv|exact H4|exact B'|apply annos_sepc, H2].
Qed.
Lemma typedef_sep td : writable_type X dec_text td -> sep (u_typedef dec_text td).
Proof.
  intros (I & _ & Wr & _) k. unfold u_typedef. cbn [app]. sk; [split; [idn|reflexivity]|]. sk. sk; [split; [exact I|reflexivity]|]. sk.
  apply sep_snoc_c; [|intros; exact Logic.I|intros; calm_tac]. apply spec_sep; [exact Wr|apply blanks_nil|apply Forall_nil].
Qed.

(** ** Values *)
Lemma sorted_sepc (col : list piece) (f : value -> list piece) l : sep col -> Forall (fun kv => sepc (f (snd kv))) l ->
  Forall sepc (map (fun kv => J (fst kv) :: P COLON :: col ++ snd kv) (sort_keys (map (fun kv => (fst kv, f (snd kv))) l))).
Proof.
  intros HC H. apply Forall_map, Forall_forall. intros [key v] Hkv.
  eapply Permutation_in in Hkv; [|apply Permutation_sym, sort_perm]. apply in_map_iff in Hkv. destruct Hkv as ([k' v'] & E & Hin).
  injection E as <- <-. rewrite Forall_forall in H. specialize (H _ Hin). cbn [fst snd] in *. intros k K.
  sk. sk. apply sepk_app; [apply HC|apply H, K].
Qed.
Lemma json_sep v : writable_value v -> sepc (u_json v).
Proof.
  induction v as [| | | | | | | | | | | |l IH|l IH] using value_ind'; intros H; inversion H; subst;
    repeat match goal with T : text_of _ _ |- _ => destruct T as [T|T]; inversion T; subst end; intros k K.
  - split; [|exact I]. split; [idn|apply K].
  - split; [|exact I]. split; [destruct b; idn|apply K].
  - split; exact I.
  - split; exact I.
  - split; [|exact I]. split; [apply numerals; assumption|apply K].
  - cbn [Unparser.u_json]. sk. apply sepk_app; [|repeat sk]. apply sep_join; [intros k'; repeat sk|intros; calm_tac| |calm_tac].
    apply Forall_map. rewrite Forall_forall in *. auto.
  - cbn [Unparser.u_json]. sk. apply sepk_app; [|repeat sk]. apply sep_join; [intros k'; repeat sk|intros; calm_tac| |calm_tac].
    apply (sorted_sepc [] u_json); [apply sep_nil|]. rewrite Forall_forall in *. auto.
Qed.
Lemma pretty_sep v : forall ind, blanks ind -> writable_value v -> sepc (u_pretty ind v).
Proof.
  induction v as [| | | | | | | | | | | |l IH|l IH] using value_ind'; intros ind B H;
    try (exact (json_sep _ H)); inversion H; subst;
    repeat match goal with T : text_of _ _ |- _ => destruct T as [T|T]; inversion T; subst end; intros k K.
  - assert (B' : blanks (ind +++ "  ")) by (apply blanks_app; [exact B|apply (spaces_blanks 2)]).
    destruct l as [|x l]; [cbn [Unparser.u_pretty]; repeat sk|].
    set (L := x :: l) in *. assert (u_pretty ind (VArr L) = P OPEN_BRACKET :: NL :: Sp (ind +++ "  ")
      :: join_pieces [P COMMA; NL; Sp (ind +++ "  ")] (map (u_pretty (ind +++ "  ")) L) ++ [NL; Sp ind; P CLOSE_BRACKET]) as -> by reflexivity.
    sk. sk. sk. apply sepk_app; [|repeat sk]. apply sep_join; [intros k'; repeat sk|intros; calm_tac| |calm_tac].
    apply Forall_map. rewrite Forall_forall in *. auto.
  - assert (B' : blanks (ind +++ "  ")) by (apply blanks_app; [exact B|apply (spaces_blanks 2)]).
    destruct l as [|x l]; [cbn [Unparser.u_pretty]; repeat sk|].
    set (L := x :: l) in *. assert (u_pretty ind (VMap L) = P OPEN_BRACE :: NL :: Sp (ind +++ "  ")
      :: join_pieces [P COMMA; NL; Sp (ind +++ "  ")]
           (map (fun kv => J (fst kv) :: P COLON :: [Sp " "] ++ snd kv)
              (sort_keys (map (fun kv => (fst kv, u_pretty (ind +++ "  ") (snd kv))) L)))
      ++ [NL; Sp ind; P CLOSE_BRACE]) as -> by reflexivity.
    sk. sk. sk. apply sepk_app; [|repeat sk]. apply sep_join; [intros k'; repeat sk|intros; calm_tac| |calm_tac].
    apply (sorted_sepc [Sp " "] (u_pretty (ind +++ "  "))); [intros k'; repeat sk|]. rewrite Forall_forall in *. auto.
Qed.

(** ** Http actions *)
Lemma req_sepc (b : bool) : Forall sepc (if b then [[W "required"]] else []).
Proof. destruct b; one. intros k K. repeat sk. split; [idn|apply K]. Qed.
Lemma spaced_line c : spaced c -> one_line_text c.
Proof. intros H. apply no_nl_one_line, spaced_contains, H. Qed.
Lemma param_sep path req p : writable_param X dec_text path req p -> sep (u_param dec_text p).
Proof.
  intros (I & _ & _ & SP & HV & HT & _). destruct HT as (Wr & _). apply spaced_line in SP. unfold u_param. cbv zeta.
  match goal with |- context [u_options ?l] => set (opts := l) end. assert (F : Forall sepc opts).
  { unfold opts. rewrite !Forall_app. split; [apply req_sepc|split].
    - assert (G : sepc (W "default" :: P EQUALS :: u_json (fd_default (ps_field p)))).
      { intros k K. sk; [split; [idn|reflexivity]|]. sk. apply json_sep; assumption. }
      destruct (fd_default (ps_field p)); one; exact G.
    - destruct (_ =?s _); one. intros k K. repeat sk. split; [idn|reflexivity]. }
  clearbody opts. apply sep_app; [destruct (_ && _); [apply u_comment3_sep|apply sep_nil]|].
  assert (G : forall c, one_line_text c -> sep ([W (fd_name (ps_field p)); Sp " "] ++ u_spec (fd_spec (ps_field p)) [] indent_amount ++ u_options opts ++ u_trailing c ++ [NL])).
  { intros c O k. cbn [app]. sk; [split; [exact I|reflexivity]|]. sk. rewrite app_assoc. apply line_sep; [|exact O].
    intros k' K. apply sepk_app; [|apply u_options_sep, F]. apply spec_sep; [exact Wr|apply indent_blanks|apply Forall_nil|].
    destruct opts; [exact K|calm_tac]. }
  destruct (_ <? _)%Z; [apply (G "" one_line_empty)|apply G, SP].
Qed.
Lemma comment4_sep c : sep (if c =?s "" then [] else u_comment indent_amount c 100 false).
Proof. destruct (c =?s ""); [apply sep_nil|apply u_comment_sep, indent_blanks]. Qed.
Lemma http_sep h : writable_http X dec_text h -> sep (u_http dec_text h).
Proof.
  intros (HM & HP & HA & HN & HI & (x & EX & _ & _ & _ & HO) & _ & HX) k. unfold u_http. cbv zeta. cbn [app].
  sk; [split; [idn|reflexivity]|]. sk. sk; [split; [|reflexivity]|].
  { simpl in HM. repeat (destruct HM as [<- |HM]; [idn|]). destruct HM. }
  sk. sk. apply sepk_app; [apply u_options_sep|].
  { rewrite Forall_app. split; [|apply annos_sepc, HA].
    match goal with |- Forall _ (if ?b then _ else _) => destruct b eqn:EB end; one. intros k' K. repeat sk; [split; [idn|reflexivity]|]. split; [|apply K].
    apply andb_true_iff in EB. destruct EB as [E1 E2]. apply negb_true_iff in E1, E2. destruct HN as [HN|[HN|HN]].
    - apply HN.
    - destruct HN as (HR & HC). apply action_of_name in HC. destruct HC as [HC _]. rewrite <- HC, seqb_refl in E2. discriminate.
    - destruct HN as (_ & _ & HN). rewrite HN in E1. discriminate. }
  sk. sk. sk. apply sepk_app; [apply sep_flat|].
  { eapply Forall_impl; [|exact HI]. intros p Hp k'. sk. eapply param_sep, Hp. }
  apply sepk_app.
  { rewrite EX. unfold u_expected. cbv zeta. sk. apply sepk_app; [apply comment4_sep|]. cbn [app]. sk. sk; [split; [idn|reflexivity]|]. sk.
    sk; [split; [apply fmt_numeral|reflexivity]|]. sk. sk. sk. apply sepk_app; [|repeat sk; apply (spaces_blanks 3)].
    apply sep_flat. eapply Forall_impl; [|exact HO]. intros p Hp k'. sk. sk. eapply param_sep, Hp. }
  apply sepk_app; [|repeat sk].
  assert (G : sep (flat_map u_exception (h_exceptions h))).
  { apply sep_flat. eapply Forall_impl; [|exact HX]. intros e (I & _ & _ & _) k'. unfold u_exception.
    apply sepk_app; [apply comment4_sep|]. cbn [app]. sk. sk; [split; [idn|reflexivity]|]. sk.
    destruct (_ =? _)%Z; cbn [app].
    - repeat sk. split; [exact I|reflexivity].
    - sk; [split; [apply fmt_numeral|reflexivity]|]. repeat sk. split; [exact I|reflexivity]. }
  destruct (h_exceptions h) as [|e es] eqn:EE; [exact I|]. sk. apply G.
Qed.

(** ** Operations *)
Lemma section_sep {A} name (l : list A) f : identifier name -> Forall (fun a => sep (f a)) l -> sep (u_section name l f).
Proof.
  intros I F k. unfold u_section. destruct l as [|a l]; [exact Logic.I|]. cbn [app]. sk. sk; [split; [exact I|reflexivity]|]. sk. sk. sk.
  apply sepk_app; [apply sep_flat, F|repeat sk].
Qed.
Lemma op_entry a b opts k : identifier a -> identifier b -> Forall sepc opts -> sepk (Sp indent_amount :: Sp indent_amount :: W a :: Sp " " :: W b :: u_options opts ++ [NL]) k.
Proof.
  intros Ia Ib F. sk. sk. sk; [split; [exact Ia|reflexivity]|]. sk.
  sk; [split; [exact Ib|]|]. { destruct opts; reflexivity. }
  apply sepk_app; [apply u_options_sep, F|repeat sk].
Qed.
Lemma operation_sep op : writable_op op -> sep (u_operation dec_text op).
Proof.
  intros (I & HA & HI & HO & HE & _) k. unfold u_operation. cbn [app]. sk; [split; [idn|reflexivity]|]. sk. sk; [split; [exact I|reflexivity]|]. sk.
  apply sepk_app; [apply u_options_sep, annos_sepc, HA|]. sk. sk. sk.
  assert (L : exists opts, last_opt op = u_options opts /\ Forall sepc opts).
  { unfold last_opt. destruct (rev (op_inputs op)) as [|i r]; eexists; (split; [reflexivity|]); [apply annos_sepc, HA|apply req_sepc]. }
  apply sepk_app; [apply section_sep; [idn|]|apply sepk_app; [apply section_sep; [idn|]|apply sepk_app; [apply section_sep; [idn|]|repeat sk]]].
  - eapply Forall_impl; [|exact HI]. intros i (I1 & t & I2 & E) k'. rewrite E. unfold u_op_input. cbv zeta. cbn [fd_spec fd_name fd_comment fd_required].
    unfold op_comment_before, op_comment_behind. change ("" =?s "") with true. cbn [negb andb]. cbv iota. cbn [app].
    destruct (_ <? _)%Z; (apply op_entry; [exact I1|exact I2|apply req_sepc]).
  - destruct L as (opts & -> & F). eapply Forall_impl; [|exact HO]. intros i (I1 & t & I2 & E) k'. rewrite E. unfold u_op_output. cbv zeta. cbn [oo_spec oo_name oo_comment].
    unfold op_comment_before, op_comment_behind. change ("" =?s "") with true. cbn [negb andb]. cbv iota. cbn [app].
    destruct (_ <? _)%Z; (apply op_entry; [exact I1|exact I2|exact F]).
  - eapply Forall_impl; [|exact HE]. intros e He k'. repeat sk. split; [exact He|reflexivity].
Qed.

(** ** Documents *)
Lemma dotted_sep s k : dotted s -> stops word_char k -> sepk (u_dotted s) k.
Proof.
  unfold dotted, u_dotted. intros H K. induction H as [|w l Hw H IH]; [exact I|]. destruct l as [|w' l]; [split; [split; [exact Hw|exact K]|exact I]|].
  change (map (fun w => [W w]) (w :: w' :: l)) with ([W w] :: [W w'] :: map (fun w => [W w]) l).
  change (join_pieces [P DOT] ([W w] :: [W w'] :: map (fun w => [W w]) l)) with (W w :: P DOT :: join_pieces [P DOT] (map (fun w => [W w]) (w' :: l))).
  sk; [split; [exact Hw|reflexivity]|]. sk. exact IH.
Qed.
Lemma example_sep e : writable_example X dec_text e -> sep (u_example dec_text e).
Proof.
  intros (D & I & HV & _) k. unfold u_example. cbn [app]. sk; [split; [idn|reflexivity]|]. sk.
  apply sepk_app; [apply dotted_sep; [exact D|reflexivity]|]. sk. sk. sk; [split; [idn|reflexivity]|]. sk.
  apply sepk_app; [unfold u_word; destruct (_ =?s _); [exact Logic.I|]; repeat sk; split; [exact I|reflexivity]|].
  sk. sk. apply sepk_app; [apply pretty_sep; [apply blanks_nil|exact HV|calm_tac]|repeat sk].
Qed.
Lemma line_word_sep name s : identifier name -> identifier s -> sep [W name; Sp " "; W s; NL].
Proof. intros A B k. sk; [split; [exact A|reflexivity]|]. repeat sk. split; [exact B|reflexivity]. Qed.
Lemma commented_sep {A} (com : A -> string) (f : A -> list piece) (Q : A -> Prop) l : (forall a, Q a -> sep (f a)) -> Forall Q l ->
  sep (flat_map (fun a => NL :: u_block_comment (com a) ++ f a) l).
Proof.
  intros H F. apply sep_flat. eapply Forall_impl; [|exact F]. intros a Ha k. sk. apply sepk_app; [apply block_comment_sep|apply H, Ha].
Qed.
Theorem schema_sep s : writable_schema X dec_text s -> sep (u_schema dec_text s).
Proof.
  intros (HN & HNS & HB & HV & (_ & HA) & HT & HO & HH & HE) k. unfold u_schema. apply sepk_app; [apply block_comment_sep|]. apply sepk_app.
  { destruct (_ =?s _) eqn:E; [exact I|]. destruct HNS as [HNS|HNS]; [rewrite HNS in E; discriminate|]. cbn [app]. sk; [split; [idn|reflexivity]|]. sk.
    apply sepk_app; [apply dotted_sep; [exact HNS|reflexivity]|repeat sk]. }
  apply sepk_app; [destruct (_ =?s _); [exact I|apply line_word_sep; [idn|exact HN]]|].
  apply sepk_app; [destruct (_ =?s _); [exact I|repeat sk; split; [idn|reflexivity]]|].
  apply sepk_app; [destruct (_ =?s _); [exact I|repeat sk; split; [idn|reflexivity]]|].
  apply sepk_app.
  { unfold u_annotations. destruct (sc_annos s) as [|a l] eqn:EA; [exact I|]. sk. apply sep_flat. rewrite <- EA in *.
    apply Forall_forall. intros [a' v] Hin k'. destruct (HA _ _ Hin) as (I1 & _). cbn [fst snd]. destruct (_ =?s _); repeat sk; (split; [exact I1|reflexivity]). }
  apply sepk_app; [eapply (commented_sep td_comment (u_typedef dec_text)); [exact typedef_sep|exact HT]|].
  apply sepk_app; [eapply (commented_sep op_comment (u_operation dec_text)); [exact operation_sep|exact HO]|].
  apply sepk_app; [eapply (commented_sep h_comment (u_http dec_text)); [exact http_sep|exact HH]|].
  eapply (commented_sep ex_comment (u_example dec_text)); [exact example_sep|exact HE].
Qed.
Theorem schema_lex s : writable_schema X dec_text s -> lex (text (u_schema dec_text s)) = tokens (u_schema dec_text s).
Proof. intros H. apply sep_lex, schema_sep, H. Qed.
End L.
