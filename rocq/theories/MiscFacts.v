(** Proofs about misc.go. *)
From Verif Require Import GoStr Misc SpecMisc.

Lemma ch_in_iff lo hi c :
  ch_in lo hi c = true <-> nat_of_ascii lo <= nat_of_ascii c <= nat_of_ascii hi.
Proof. unfold ch_in. rewrite andb_true_iff, !Nat.leb_le. tauto. Qed.
Lemma is_upper_iff c : is_upper c = true <-> upper_letter c.
Proof. unfold is_upper. rewrite ch_in_iff. reflexivity. Qed.
Lemma is_lower_iff c : is_lower c = true <-> lower_letter c.
Proof. unfold is_lower. rewrite ch_in_iff. reflexivity. Qed.
Lemma is_digit_iff c : is_digit c = true <-> digit c.
Proof. unfold is_digit. rewrite ch_in_iff. reflexivity. Qed.
Lemma is_letter_iff c : is_letter c = true <-> letter c.
Proof. unfold is_letter, letter. rewrite orb_true_iff, is_upper_iff, is_lower_iff. tauto. Qed.
Lemma is_ascii7_iff c : is_ascii7 c = true <-> ascii7 c.
Proof. unfold is_ascii7. apply Nat.ltb_lt. Qed.

Lemma sforall_iff p s : sforall p s = true <-> forall c, has_char c s -> p c = true.
Proof.
  induction s as [|x s IH]; simpl.
  - split; [|reflexivity]. intros _ c (a & b & H). destruct a; discriminate.
  - rewrite andb_true_iff, IH. split.
    + intros [Hx Hs] c (a & b & H). destruct a as [|y a]; simpl in H; injection H as Hy H.
      * now rewrite <- Hy.
      * apply Hs. now exists a, b.
    + intros H. split.
      * apply H. now exists EmptyString, s.
      * intros c (a & b & E). apply H. exists (String x a), b. simpl. now rewrite E.
Qed.

Lemma is_symbol_iff s : is_symbol s = true <-> identifier s.
Proof.
  unfold is_symbol, identifier. destruct s as [|c r].
  - split; [discriminate|]. intros (c & r & H & _). discriminate.
  - rewrite andb_true_iff, sforall_iff. unfold is_symbol_char.
    split.
    + intros [Hc Hr]. exists c, r. split; [reflexivity|]. split.
      * destruct (is_letter c) eqn:E; [now apply is_letter_iff|discriminate].
      * intros x Hx. specialize (Hr x Hx). destruct (is_letter x) eqn:E.
        -- left. now apply is_letter_iff.
        -- right. apply orb_true_iff in Hr. destruct Hr as [Hd|Hu].
           ++ left. now apply is_digit_iff.
           ++ right. now apply ceqb_eq.
    + intros (c' & r' & E & Hl & Hr). injection E as <- <-. split.
      * apply is_letter_iff in Hl. now rewrite Hl.
      * intros x Hx. destruct (Hr x Hx) as [H|[H| ->]].
        -- apply is_letter_iff in H. now rewrite H.
        -- apply is_digit_iff in H. destruct (is_letter x); [reflexivity|]. rewrite H. reflexivity.
        -- reflexivity.
Qed.

(** Single characters: 256 cases. *)
Ltac all_bytes c := destruct c as [[|] [|] [|] [|] [|] [|] [|] [|]].

Lemma upper_lower_id c : is_lower c = true -> to_lower_ch (to_upper_ch c) = c.
Proof. all_bytes c; vm_compute; intro H; first [reflexivity|discriminate]. Qed.
Lemma lower_upper_id c : is_upper c = true -> to_upper_ch (to_lower_ch c) = c.
Proof. all_bytes c; vm_compute; intro H; first [reflexivity|discriminate]. Qed.
Lemma upper_idem c : to_upper_ch (to_upper_ch c) = to_upper_ch c.
Proof. all_bytes c; vm_compute; reflexivity. Qed.
Lemma lower_idem c : to_lower_ch (to_lower_ch c) = to_lower_ch c.
Proof. all_bytes c; vm_compute; reflexivity. Qed.
Lemma upper_ascii7 c : is_ascii7 c = true -> is_ascii7 (to_upper_ch c) = true.
Proof. all_bytes c; vm_compute; intro H; first [reflexivity|discriminate]. Qed.
Lemma lower_ascii7 c : is_ascii7 c = true -> is_ascii7 (to_lower_ch c) = true.
Proof. all_bytes c; vm_compute; intro H; first [reflexivity|discriminate]. Qed.

Lemma lower_is_ascii7 c : lower_letter c -> is_ascii7 c = true.
Proof. intro H. apply is_ascii7_iff. unfold lower_letter, ascii7 in *. lia. Qed.
Lemma upper_is_ascii7 c : upper_letter c -> is_ascii7 c = true.
Proof. intro H. apply is_ascii7_iff. unfold upper_letter, ascii7 in *. lia. Qed.

Lemma to_upper_cases c : (is_lower c = true /\ case_pair (to_upper_ch c) c) \/ (~ lower_letter c /\ to_upper_ch c = c).
Proof.
  destruct (is_lower c) eqn:E.
  - left. split; [reflexivity|]. apply is_lower_iff in E as E'. unfold to_upper_ch. rewrite E.
    unfold case_pair, upper_letter, lower_letter in *.
    rewrite nat_ascii_embedding by lia. lia.
  - right. split; [intro H; apply is_lower_iff in H; congruence|]. unfold to_upper_ch. now rewrite E.
Qed.
Lemma to_lower_cases c : (is_upper c = true /\ case_pair c (to_lower_ch c)) \/ (~ upper_letter c /\ to_lower_ch c = c).
Proof.
  destruct (is_upper c) eqn:E.
  - left. split; [reflexivity|]. apply is_upper_iff in E as E'. unfold to_lower_ch. rewrite E.
    unfold case_pair, upper_letter, lower_letter in *.
    rewrite nat_ascii_embedding by lia. lia.
  - right. split; [intro H; apply is_upper_iff in H; congruence|]. unfold to_lower_ch. now rewrite E.
Qed.

(** What Capitalize does to a string that starts with an ASCII byte. *)
Lemma capitalize_spec c r :
  ascii7 c ->
  exists d, capitalize (String c r) = String d r
    /\ (lower_letter c -> case_pair d c) /\ (~ lower_letter c -> d = c).
Proof.
  intro H. apply is_ascii7_iff in H. unfold capitalize, upper1. rewrite H. exists (to_upper_ch c).
  split; [reflexivity|]. destruct (to_upper_cases c) as [[E P]|[E P]].
  - split; [auto|]. intro N. apply is_lower_iff in E. contradiction.
  - split; [contradiction|auto].
Qed.
Lemma uncapitalize_spec c r :
  ascii7 c ->
  exists d, uncapitalize (String c r) = String d r
    /\ (upper_letter c -> case_pair c d) /\ (~ upper_letter c -> d = c).
Proof.
  intro H. apply is_ascii7_iff in H. unfold uncapitalize, lower1. rewrite H. exists (to_lower_ch c).
  split; [reflexivity|]. destruct (to_lower_cases c) as [[E P]|[E P]].
  - split; [auto|]. intro N. apply is_upper_iff in E. contradiction.
  - split; [contradiction|auto].
Qed.

Lemma capitalize_idem s :
  (forall c r, s = String c r -> ascii7 c) ->
  capitalize (capitalize s) = capitalize s /\ uncapitalize (uncapitalize s) = uncapitalize s.
Proof.
  intro H. destruct s as [|c r]; [split; reflexivity|].
  specialize (H c r eq_refl). apply is_ascii7_iff in H.
  unfold capitalize, uncapitalize, upper1, lower1. rewrite H. simpl.
  rewrite (upper_ascii7 _ H), (lower_ascii7 _ H). simpl. now rewrite upper_idem, lower_idem.
Qed.

Lemma cap_uncap s c r : s = String c r -> lower_letter c -> uncapitalize (capitalize s) = s.
Proof.
  intros -> H. assert (H7 := lower_is_ascii7 _ H). apply is_lower_iff in H.
  unfold capitalize, uncapitalize, upper1, lower1. rewrite H7. simpl.
  rewrite (upper_ascii7 _ H7). simpl. now rewrite (upper_lower_id _ H).
Qed.
Lemma uncap_cap s c r : s = String c r -> upper_letter c -> capitalize (uncapitalize s) = s.
Proof.
  intros -> H. assert (H7 := upper_is_ascii7 _ H). apply is_upper_iff in H.
  unfold capitalize, uncapitalize, upper1, lower1. rewrite H7. simpl.
  rewrite (lower_ascii7 _ H7). simpl. now rewrite (lower_upper_id _ H).
Qed.

Lemma capitalize_identifier s : identifier s -> identifier (capitalize s) /\ identifier (uncapitalize s).
Proof.
  intros (c & r & -> & Hl & Hr).
  assert (H7 : ascii7 c) by (unfold letter, lower_letter, upper_letter, ascii7 in *; lia).
  destruct (capitalize_spec c r H7) as (d & E & P1 & P2).
  destruct (uncapitalize_spec c r H7) as (d' & E' & P1' & P2').
  split.
  - exists d, r. split; [exact E|]. split; [|exact Hr]. destruct Hl as [Hl|Hl].
    + right. apply (P1 Hl).
    + rewrite P2; [now right|]. unfold lower_letter, upper_letter in *. lia.
  - exists d', r. split; [exact E'|]. split; [|exact Hr]. destruct Hl as [Hl|Hl].
    + rewrite P2'; [now left|]. unfold lower_letter, upper_letter in *. lia.
    + left. apply (P1' Hl).
Qed.

(** ** FormatComment *)
Lemma contains_nl s : contains nl s = smem "010" s.
Proof.
  apply eq_true_iff_eq. rewrite contains_spec. split.
  - intros (a & b & ->). rewrite !smem_app. simpl. now rewrite orb_true_r.
  - intro H. destruct (cut "010" s) as [[x y]|] eqn:E.
    + apply cut_Some in E. destruct E as [-> _]. now exists x, y.
    + apply cut_None in E. congruence.
Qed.

Lemma join_snoc sep g x : g <> [] -> join sep (g ++ [x]) = join sep g +++ sep +++ x.
Proof.
  induction g as [|y g IH]; intro H; [congruence|].
  destruct g as [|z g]; [reflexivity|].
  change ((y :: z :: g) ++ [x]) with (y :: (z :: g) ++ [x]).
  assert (E : join sep (y :: (z :: g) ++ [x]) = y +++ sep +++ join sep ((z :: g) ++ [x])) by reflexivity.
  rewrite E, IH by discriminate.
  assert (E2 : join sep (y :: z :: g) = y +++ sep +++ join sep (z :: g)) by reflexivity.
  rewrite E2. now rewrite !append_assoc.
Qed.

Lemma slen_app a b : slen (a +++ b) = (slen a + slen b)%Z.
Proof. unfold slen. rewrite append_length. lia. Qed.
Lemma slen_nonneg a : (0 <= slen a)%Z.
Proof. unfold slen. lia. Qed.

Section Wrap.
Variables tab prefix : string.
Variable maxcol : Z.
Local Open Scope Z_scope.
Notation margin := (tab +++ prefix).

(** A line in progress holding the words [g], with a margin that is not empty. *)
Lemma wrap_groups toks : forall g,
  0 < slen margin -> g <> [] ->
  ((2 <= length g)%nat -> slen (margin +++ join " " g) <= maxcol) ->
  exists groups, concat groups = g ++ toks /\ laid_out margin maxcol groups
    /\ (margin +++ join " " g) +++ wrap tab prefix maxcol (slen (margin +++ join " " g)) toks +++ nl
       = lines_of margin groups.
Proof.
  induction toks as [|tok r IH]; intros g Hm Hg Hb.
  - exists [g]. simpl. split; [reflexivity|]. split.
    + intros g' [<-|[]]. split; [exact Hg|exact Hb].
    + unfold one_line. rewrite append_nil_r. now rewrite append_assoc.
  - assert (Hpos : 0 < slen (margin +++ join " " g)).
    { rewrite slen_app. pose proof (slen_nonneg (join " " g)). lia. }
    cbn [wrap]. destruct (maxcol <=? slen (margin +++ join " " g) + slen tok) eqn:E.
    + simpl (0 =? 0).
      destruct (IH [tok]) as (groups & Hc & Hl & Heq); [exact Hm|discriminate|simpl; lia|].
      exists (g :: groups). split; [simpl; now rewrite Hc|]. split.
      * intros g' [<-|H]; [split; assumption|now apply Hl].
      * cbn [lines_of fold_right]. fold (lines_of margin groups). rewrite <- Heq.
        unfold one_line, newline. fold nl.
        simpl (join " " [tok]). rewrite !slen_app. rewrite !append_assoc. reflexivity.
    + assert (Hz : (slen (margin +++ join " " g) =? 0) = false) by (apply Z.eqb_neq; lia).
      rewrite Hz. apply Z.leb_gt in E.
      assert (Ej : margin +++ join " " (g ++ [tok]) = (margin +++ join " " g) +++ " " +++ tok).
      { rewrite join_snoc by exact Hg. now rewrite !append_assoc. }
      assert (El : slen (margin +++ join " " (g ++ [tok])) = slen (margin +++ join " " g) + (slen tok + 1)).
      { rewrite Ej, (slen_app (margin +++ join " " g)), (slen_app " " tok).
        change (slen " ") with 1. lia. }
      destruct (IH (g ++ [tok])) as (groups & Hc & Hl & Heq); [exact Hm| | |].
      * destruct g; discriminate.
      * intros _. lia.
      * exists groups. split; [rewrite Hc, <- app_assoc; reflexivity|]. split; [exact Hl|].
        rewrite <- Heq, El, Ej. now rewrite !append_assoc.
Qed.

Lemma wrap_start toks :
  0 < slen margin -> toks <> [] ->
  exists groups, concat groups = toks /\ laid_out margin maxcol groups
    /\ wrap tab prefix maxcol 0 toks +++ nl
       = (if maxcol <=? slen (hd EmptyString toks) then nl else EmptyString) +++ lines_of margin groups.
Proof.
  intros Hm Ht. destruct toks as [|tok r]; [congruence|].
  destruct (wrap_groups r [tok] Hm) as (groups & Hc & Hl & Heq); [discriminate|simpl; lia|].
  exists groups. split; [exact Hc|]. split; [exact Hl|].
  rewrite <- Heq. cbn [wrap hd]. rewrite Z.add_0_l. simpl (join " " [tok]). rewrite !slen_app.
  destruct (maxcol <=? slen tok); simpl (0 =? 0); now rewrite !append_assoc.
Qed.
End Wrap.

(** Without a margin a blank word at the start of a line leaves no trace. *)
Section WrapBare.
Variable maxcol : Z.
Local Open Scope Z_scope.

Lemma slen_0 s : slen s = 0 -> s = EmptyString.
Proof. destruct s; [reflexivity|]. unfold slen. simpl. lia. Qed.
Lemma nonblank_nil : nonblank EmptyString = false.
Proof. reflexivity. Qed.

Definition same_words (a b : list string) : Prop := filter nonblank a = filter nonblank b.

Lemma wrap_bare toks :
  (forall g, g <> [] -> 0 < slen (join " " g) ->
    ((2 <= length g)%nat -> slen (join " " g) <= maxcol) ->
    exists groups, same_words (concat groups) (g ++ toks) /\ laid_out "" maxcol groups
      /\ join " " g +++ wrap "" "" maxcol (slen (join " " g)) toks +++ nl = lines_of "" groups)
  /\ (exists groups, same_words (concat groups) toks /\ laid_out "" maxcol groups
      /\ wrap "" "" maxcol 0 toks +++ nl = lines_of "" groups).
Proof.
  induction toks as [|tok r [IHA IHB]].
  - split.
    + intros g Hg Hpos Hb. exists [g]. split; [reflexivity|]. split.
      * intros g' [<-|[]]. split; assumption.
      * simpl. unfold one_line. simpl. now rewrite append_nil_r.
    + exists [[""]]. split; [reflexivity|]. split; [|reflexivity].
      intros g' [<-|[]]. split; [discriminate|]. simpl. lia.
  - assert (Htok : (tok = "" /\ slen tok = 0) \/ 0 < slen tok).
    { destruct tok; [left; split; reflexivity|right; unfold slen; simpl; lia]. }
    assert (Start : exists groups, same_words (concat groups) (tok :: r) /\ laid_out "" maxcol groups
       /\ tok +++ wrap "" "" maxcol (slen tok) r +++ nl = lines_of "" groups).
    { destruct Htok as [[-> _]|Hp].
      - destruct IHB as (groups & Hc & Hl & Heq). exists groups. split; [exact Hc|]. split; [exact Hl|exact Heq].
      - destruct (IHA [tok]) as (groups & Hc & Hl & Heq); [discriminate|exact Hp|simpl; lia|].
        exists groups. split; [exact Hc|]. split; [exact Hl|exact Heq]. }
    destruct Start as (gs & Hc & Hl & Heq). split.
    + intros g Hg Hpos Hb. cbn [wrap]. destruct (maxcol <=? slen (join " " g) + slen tok) eqn:E.
      * simpl (0 =? 0). cbn [String.append]. exists (g :: gs). split.
        -- unfold same_words in *. simpl. rewrite !filter_app. now rewrite Hc.
        -- split.
           ++ intros g' [<-|H]; [split; assumption|now apply Hl].
           ++ cbn [lines_of fold_right]. fold (lines_of "" gs). rewrite <- Heq.
              unfold one_line, newline. fold nl. change (slen "") with 0. rewrite !Z.add_0_l.
              now rewrite !append_assoc.
      * assert (Hz : (slen (join " " g) =? 0) = false) by (apply Z.eqb_neq; lia).
        rewrite Hz. apply Z.leb_gt in E.
        assert (Ej : join " " (g ++ [tok]) = join " " g +++ " " +++ tok) by (apply join_snoc; exact Hg).
        assert (El : slen (join " " (g ++ [tok])) = slen (join " " g) + (slen tok + 1)).
        { rewrite Ej, slen_app, slen_app. change (slen " ") with 1. lia. }
        destruct (IHA (g ++ [tok])) as (groups & Hc' & Hl' & Heq').
        -- destruct g; discriminate.
        -- pose proof (slen_nonneg tok). lia.
        -- intros _. lia.
        -- exists groups. rewrite <- app_assoc in Hc'. split; [exact Hc'|]. split; [exact Hl'|].
           rewrite <- Heq', El, Ej. now rewrite !append_assoc.
    + cbn [wrap]. rewrite Z.add_0_l. change (slen "") with 0. rewrite !Z.add_0_l. cbn [String.append].
      destruct (maxcol <=? slen tok) eqn:E; simpl (0 =? 0); cbn [String.append].
      * exists ([""] :: gs). split; [exact Hc|]. split.
        -- intros g' [<-|H]; [split; [discriminate|simpl; lia]|now apply Hl].
        -- cbn [lines_of fold_right]. fold (lines_of "" gs). rewrite <- Heq.
           unfold one_line. simpl. now rewrite append_assoc.
      * exists gs. split; [exact Hc|]. split; [exact Hl|]. rewrite <- Heq. now rewrite append_assoc.
Qed.
End WrapBare.

Lemma spaces_length n : String.length (spaces n) = n.
Proof. induction n; simpl; congruence. Qed.

Definition pad_of (indent prefix : string) (b : bool) : string :=
  if b then spaces (String.length indent) +++ trim_sp prefix +++ nl else EmptyString.

(** The single-line case of FormatComment with a usable limit. *)
Lemma format_comment_wrapped indent prefix comment maxcol b :
  (slen indent < maxcol)%Z -> smem "010" comment = false ->
  indent +++ prefix <> "" ->
  exists groups, concat groups = split " " comment
    /\ laid_out (spaces (String.length indent) +++ prefix) maxcol groups
    /\ format_comment indent prefix comment maxcol b
       = pad_of indent prefix b
         +++ ((if (maxcol <=? slen (hd EmptyString (split " " comment)))%Z then nl else EmptyString)
              +++ lines_of (spaces (String.length indent) +++ prefix) groups)
         +++ pad_of indent prefix b.
Proof.
  intros Hw Hnl Hm. unfold format_comment. rewrite contains_nl, Hnl.
  assert (E : (maxcol <=? slen indent)%Z = false) by (apply Z.leb_gt; exact Hw). rewrite E. cbn [andb].
  destruct (wrap_start (spaces (String.length indent)) prefix maxcol (split " " comment))
    as (groups & Hc & Hl & Heq).
  - assert (Hs : slen (spaces (String.length indent) +++ prefix) = slen (indent +++ prefix)).
    { unfold slen. now rewrite !append_length, spaces_length. }
    rewrite Hs. destruct (indent +++ prefix); [congruence|]. unfold slen. simpl. lia.
  - apply split_nonempty.
  - exists groups. split; [exact Hc|]. split; [exact Hl|]. rewrite Heq. reflexivity.
Qed.

Lemma format_comment_bare comment maxcol b :
  (0 < maxcol)%Z -> smem "010" comment = false ->
  exists groups, same_words (concat groups) (split " " comment) /\ laid_out "" maxcol groups
    /\ format_comment "" "" comment maxcol b
       = pad_of "" "" b +++ lines_of "" groups +++ pad_of "" "" b.
Proof.
  intros Hw Hnl. unfold format_comment. rewrite contains_nl, Hnl.
  assert (E : (maxcol <=? slen "")%Z = false) by (apply Z.leb_gt; exact Hw). rewrite E. cbn [andb].
  destruct (proj2 (wrap_bare maxcol (split " " comment))) as (groups & Hc & Hl & Heq).
  exists groups. split; [exact Hc|]. split; [exact Hl|].
  change (spaces (String.length "")) with "". rewrite Heq. reflexivity.
Qed.

Lemma each_line_lines tab prefix l :
  each_line tab prefix l = lines_of (tab +++ prefix) (map (fun x => [x]) l).
Proof.
  induction l as [|x l IH]; [reflexivity|].
  cbn [each_line map lines_of fold_right]. fold (lines_of (tab +++ prefix) (map (fun x => [x]) l)).
  rewrite IH. unfold one_line. simpl (join " " [x]). now rewrite !append_assoc.
Qed.

Lemma format_comment_lines indent prefix comment maxcol b :
  smem "010" comment = true ->
  format_comment indent prefix comment maxcol b
  = lines_of (spaces (String.length indent) +++ prefix) (map (fun x => [x]) (split "010" comment)).
Proof.
  intro H. unfold format_comment. rewrite contains_nl, H. cbn [negb]. rewrite andb_false_r.
  apply each_line_lines.
Qed.

(** ** White space *)
Lemma is_space_iff c : is_space c = true <-> blank_char c.
Proof.
  unfold is_space, blank_char. rewrite orb_true_iff, andb_true_iff, Nat.eqb_eq, !Nat.leb_le. tauto.
Qed.

Lemma ltrim_head s : ltrim s = EmptyString \/ exists c r, ltrim s = String c r /\ is_space c = false.
Proof.
  induction s as [|c s IH]; [now left|]. simpl. destruct (is_space c) eqn:E; [exact IH|].
  right. now exists c, s.
Qed.
Lemma rtrim_cons c r : is_space c = false -> rtrim (String c r) = String c (rtrim r).
Proof. intro H. simpl. rewrite H. destruct (rtrim r); reflexivity. Qed.
Lemma ltrim_decomp s : exists a, s = a +++ ltrim s /\ forall c, has_char c a -> blank_char c.
Proof.
  induction s as [|x s (a & Ha & Hb)].
  - exists EmptyString. split; [reflexivity|]. intros c (p & q & H). destruct p; discriminate.
  - simpl. destruct (is_space x) eqn:E.
    + exists (String x a). split; [simpl; congruence|]. intros c (p & q & H).
      destruct p as [|y p]; simpl in H; injection H as H1 H2.
      * subst c. now apply is_space_iff.
      * apply Hb. now exists p, q.
    + exists EmptyString. split; [reflexivity|]. intros c (p & q & H). destruct p; discriminate.
Qed.
Lemma rtrim_decomp s : exists b, s = rtrim s +++ b /\ forall c, has_char c b -> blank_char c.
Proof.
  induction s as [|x s (b & Hb & Hc)].
  - exists EmptyString. split; [reflexivity|]. intros c (p & q & H). destruct p; discriminate.
  - simpl. destruct (rtrim s) as [|y r] eqn:E.
    + destruct (is_space x) eqn:Ex.
      * exists (String x b). simpl in Hb. split; [simpl; congruence|]. intros c (p & q & H).
        destruct p as [|z p]; simpl in H; injection H as H1 H2.
        -- subst c. now apply is_space_iff.
        -- apply Hc. now exists p, q.
      * exists b. split; [simpl in *; congruence|exact Hc].
    + exists b. split; [simpl in *; congruence|exact Hc].
Qed.
Lemma rtrim_last s c r : rtrim s = r +++ String c EmptyString -> is_space c = false.
Proof.
  revert r; induction s as [|x s IH]; intros r H; [destruct r; discriminate|].
  simpl in H. destruct (rtrim s) as [|y t] eqn:E.
  - destruct (is_space x) eqn:Ex; [destruct r; discriminate|].
    destruct r as [|z r]; simpl in H; injection H; intros; [now subst|destruct r; discriminate].
  - destruct r as [|z r]; simpl in H; injection H as H1 H2; [discriminate|].
    apply (IH r). exact H2.
Qed.

Lemma trim_space_spec s : trim_of s (trim_space s).
Proof.
  unfold trim_space. destruct (ltrim_decomp s) as (a & Ha & Hba).
  destruct (rtrim_decomp (ltrim s)) as (b & Hb & Hbb). split.
  - intros c Hc. apply is_space_iff in Hc. split; intros r E.
    + destruct (ltrim_head s) as [H|(d & q & H & Hd)].
      * rewrite H in E. discriminate.
      * rewrite H, (rtrim_cons _ _ Hd) in E. injection E as E1 E2. congruence.
    + apply rtrim_last in E. congruence.
  - exists a, b. split; [congruence|]. split; assumption.
Qed.

Lemma trimmed_ltrim s : trimmed s -> ltrim s = s.
Proof.
  intro H. destruct s as [|c r]; [reflexivity|]. simpl. destruct (is_space c) eqn:E; [|reflexivity].
  apply is_space_iff in E. destruct (H c E) as [H1 _]. now destruct (H1 r).
Qed.
Lemma last_case s : s = EmptyString \/ exists r c, s = r +++ String c EmptyString.
Proof.
  induction s as [|x s [->|(r & c & ->)]]; [now left| |].
  - right. now exists EmptyString, x.
  - right. now exists (String x r), c.
Qed.
Lemma rtrim_app a b :
  rtrim (a +++ b) = match rtrim b with EmptyString => rtrim a | t => a +++ t end.
Proof.
  induction a as [|x a IH]; simpl; [destruct (rtrim b); reflexivity|].
  rewrite IH. destruct (rtrim b) as [|y t]; [reflexivity|].
  destruct a; reflexivity.
Qed.
Lemma trimmed_rtrim s : trimmed s -> rtrim s = s.
Proof.
  intro H. destruct (last_case s) as [->|(r & c & ->)]; [reflexivity|].
  rewrite rtrim_app. simpl. destruct (is_space c) eqn:E; [|reflexivity].
  apply is_space_iff in E. destruct (H c E) as [_ H1]. now destruct (H1 r).
Qed.
Lemma trimmed_trim s : trimmed s -> trim_space s = s.
Proof. intro H. unfold trim_space. rewrite (trimmed_ltrim _ H). now apply trimmed_rtrim. Qed.
Lemma trim_trimmed s : trimmed (trim_space s).
Proof. apply trim_space_spec. Qed.
Lemma trim_idem s : trim_space (trim_space s) = trim_space s.
Proof. apply trimmed_trim, trim_trimmed. Qed.

Lemma trimmed_app a b m : trimmed a -> trimmed b -> a <> "" -> b <> "" -> trimmed (a +++ m +++ b).
Proof.
  intros Ha Hb Na Nb c Hc. split; intros r E.
  - destruct a as [|x a]; [congruence|]. simpl in E. injection E as E1 E2.
    destruct (Ha c Hc) as [H _]. apply (H a). now rewrite E1.
  - destruct (last_case b) as [->|(q & d & ->)]; [congruence|].
    rewrite <- !append_assoc in E.
    assert (Hd : d = c).
    { clear -E. revert E. generalize ((a +++ m) +++ q). intro s. revert r.
      induction s as [|y s IH]; intros [|z r] E; simpl in E; injection E; intros E1; intros.
      - exact E1.
      - destruct r; discriminate.
      - destruct s; discriminate.
      - now apply (IH r). }
    subst d. destruct (Hb c Hc) as [_ H]. now apply (H q).
Qed.

Lemma trimmed_nil : trimmed "".
Proof. intros c _. split; intros r E; [discriminate|destruct r; discriminate]. Qed.

(** ** MergeComment *)
Lemma merge_left_id c : merge_comment "" c = trim_space c.
Proof. reflexivity. Qed.
Lemma merge_right_id c : merge_comment c "" = trim_space c.
Proof.
  unfold merge_comment. destruct (c =?s "") eqn:E; [|reflexivity].
  apply seqb_eq in E. now subst.
Qed.
Lemma merge_trimmed a b : trimmed a -> trimmed b -> trimmed (merge_comment a b).
Proof.
  intros Ha Hb. unfold merge_comment. destruct (a =?s "") eqn:Ea; [apply trim_trimmed|].
  destruct (b =?s "") eqn:Eb; [apply trim_trimmed|].
  apply seqb_neq in Ea. apply seqb_neq in Eb.
  rewrite (trimmed_trim a Ha), (trimmed_trim b Hb). now apply trimmed_app.
Qed.
Lemma merge_eq a b : trimmed a -> trimmed b -> merge_comment a b = join " " (filter nonblank [a; b]).
Proof.
  intros Ha Hb. unfold merge_comment. rewrite (trimmed_trim a Ha), (trimmed_trim b Hb).
  cbn [filter]. unfold nonblank.
  destruct (a =?s "") eqn:Ea; destruct (b =?s "") eqn:Eb; simpl; try reflexivity.
  apply seqb_eq in Eb. now subst.
Qed.
Lemma merge_assoc a b c :
  trimmed a -> trimmed b -> trimmed c ->
  merge_comment (merge_comment a b) c = merge_comment a (merge_comment b c).
Proof.
  intros Ha Hb Hc.
  rewrite (merge_eq _ c (merge_trimmed a b Ha Hb) Hc), (merge_eq a _ Ha (merge_trimmed b c Hb Hc)).
  rewrite (merge_eq a b Ha Hb), (merge_eq b c Hb Hc). unfold nonblank. simpl.
  assert (nz : forall x y, (x +++ String " " y =?s "") = false).
  { intros x y. apply seqb_neq. destruct x; discriminate. }
  destruct (a =?s "") eqn:Ea; destruct (b =?s "") eqn:Eb; destruct (c =?s "") eqn:Ec; simpl;
    rewrite ?nz, ?Ea, ?Eb, ?Ec; simpl; rewrite ?nz, ?Ea, ?Eb, ?Ec; simpl; try reflexivity.
  now rewrite append_assoc.
Qed.

(** Merging any list of comments, in order, starting from the empty comment. *)
Lemma trim_snoc_blank s : trimmed s -> trim_space (s +++ " ") = s.
Proof.
  intro H. unfold trim_space. destruct s as [|c r]; [reflexivity|].
  assert (E : is_space c = false).
  { destruct (is_space c) eqn:E; [|reflexivity]. apply is_space_iff in E.
    destruct (H c E) as [H1 _]. now destruct (H1 r). }
  simpl ((String c r) +++ " "). cbn [ltrim]. rewrite E.
  change (String c (r +++ " ")) with (String c r +++ " "). rewrite rtrim_app.
  change (rtrim " ") with "". cbn iota. now apply trimmed_rtrim.
Qed.

Lemma merge_trim_step acc c :
  trim_space (merge_comment acc c) = merge_comment (trim_space acc) (trim_space c).
Proof.
  rewrite (merge_eq _ _ (trim_trimmed acc) (trim_trimmed c)). unfold merge_comment, nonblank. simpl.
  destruct (acc =?s "") eqn:Ea.
  - apply seqb_eq in Ea. subst acc. change (trim_space "") with "". simpl.
    destruct (trim_space c =?s "") eqn:Ec; simpl; [apply seqb_eq in Ec; now rewrite Ec|]. apply trim_idem.
  - destruct (c =?s "") eqn:Ec.
    + apply seqb_eq in Ec. subst c. change (trim_space "") with "". simpl.
      destruct (trim_space acc =?s "") eqn:Et; simpl; [apply seqb_eq in Et; now rewrite Et|].
      apply trim_idem.
    + pose proof (trim_trimmed acc) as Ta. pose proof (trim_trimmed c) as Tc.
      set (x := trim_space acc) in *. set (y := trim_space c) in *.
      destruct (x =?s "") eqn:Ex; destruct (y =?s "") eqn:Ey; simpl.
      * apply seqb_eq in Ex, Ey. rewrite Ex, Ey. reflexivity.
      * apply seqb_eq in Ex. rewrite Ex. simpl. unfold trim_space. simpl. now apply trimmed_trim.
      * apply seqb_eq in Ey. rewrite Ey. now apply trim_snoc_blank.
      * apply seqb_neq in Ex, Ey. apply trimmed_trim. now apply (trimmed_app x y " ").
Qed.

Lemma join_cons sep x l : l <> [] -> join sep (x :: l) = x +++ sep +++ join sep l.
Proof. destruct l; [congruence|reflexivity]. Qed.

Lemma join_nonblank_nil l : join " " (filter nonblank l) = "" -> filter nonblank l = [].
Proof.
  induction l as [|x l IH]; [reflexivity|]. simpl. destruct (nonblank x) eqn:E; [|exact IH].
  intro H. exfalso. destruct (filter nonblank l) as [|y t].
  - simpl in H. subst x. discriminate.
  - rewrite join_cons in H by discriminate. apply append_eq_nil in H. destruct H as [_ H]. discriminate.
Qed.

Lemma join_app l1 l2 : l1 <> [] -> l2 <> [] -> join " " (l1 ++ l2) = join " " l1 +++ " " +++ join " " l2.
Proof.
  induction l1 as [|x l1 IH]; intros H1 H2; [congruence|].
  destruct l1 as [|y l1].
  - simpl ([x] ++ l2). now rewrite join_cons.
  - change ((x :: y :: l1) ++ l2) with (x :: ((y :: l1) ++ l2)).
    rewrite join_cons by (destruct l1; discriminate). rewrite IH by (try discriminate; assumption).
    rewrite (join_cons " " x (y :: l1)) by discriminate. now rewrite !append_assoc.
Qed.

Lemma joined_trimmed l : trimmed (join " " (filter nonblank (map trim_space l))).
Proof.
  induction l as [|x l IH]; [apply trimmed_nil|]. simpl. destruct (nonblank (trim_space x)) eqn:E; [|exact IH].
  destruct (filter nonblank (map trim_space l)) as [|y t] eqn:Et; [simpl; apply trim_trimmed|].
  rewrite join_cons by discriminate. apply trimmed_app; [apply trim_trimmed|exact IH| |].
  - intro H. rewrite H in E. discriminate.
  - intro H. rewrite <- Et in H. apply join_nonblank_nil in H. rewrite H in Et. discriminate.
Qed.

Lemma merge_all_aux l : forall pre acc,
  trim_space acc = join " " (filter nonblank (map trim_space pre)) ->
  trim_space (fold_left merge_comment l acc)
  = join " " (filter nonblank (map trim_space (pre ++ l))).
Proof.
  induction l as [|x l IH]; intros pre acc H; simpl.
  - now rewrite app_nil_r.
  - replace (pre ++ x :: l) with ((pre ++ [x]) ++ l) by (rewrite <- app_assoc; reflexivity).
    apply IH. rewrite merge_trim_step, H. rewrite map_app, filter_app.
    rewrite merge_eq by (try apply joined_trimmed; apply trim_trimmed).
    cbn [filter]. unfold nonblank at 1.
    destruct (join " " (filter nonblank (map trim_space pre)) =?s "") eqn:E.
    + apply seqb_eq in E. apply join_nonblank_nil in E. rewrite E. simpl. reflexivity.
    + cbn [negb]. simpl (map trim_space [x]). cbn [filter]. destruct (nonblank (trim_space x)) eqn:Ex.
      * rewrite join_app; [reflexivity| |discriminate]. intro H0. rewrite H0 in E. discriminate.
      * rewrite app_nil_r. reflexivity.
Qed.
Lemma merge_all l :
  trim_space (fold_left merge_comment l "") = join " " (filter nonblank (map trim_space l)).
Proof. apply (merge_all_aux l [] ""). reflexivity. Qed.
