(** Comments written over several lines are read as they were. *)
From Verif Require Import GoStr Outcome Value Schema Scalars Misc MiscFacts Model Scan ScanFacts Acts Parser
  SpecModel SpecMisc SpecText SpecOptions Yields Unparser SpecUnparse UnparseFacts UnparseBlocks.

(** the comment collected over line ends and comments *)
Definition junk_comment (c : string) (j : list token) : string :=
  fold_left (fun c t => match tk_type t with LINE_COMMENT => merge_comment c (tk_text t) | _ => c end) j c.
Lemma junk_comment_app c a b : junk_comment c (a ++ b) = junk_comment (junk_comment c a) b.
Proof. apply fold_left_app. Qed.
Definition line_texts (j : list token) : list string :=
  flat_map (fun t => match tk_type t with LINE_COMMENT => [tk_text t] | _ => [] end) j.
Lemma junk_comment_texts j : forall c, junk_comment c j = fold_left merge_comment (line_texts j) c.
Proof.
  induction j as [|t j IH]; intros c; [reflexivity|]. unfold junk_comment in *. simpl. rewrite IH.
  destruct (tk_type t); reflexivity.
Qed.
Lemma line_texts_app a b : line_texts (a ++ b) = line_texts a ++ line_texts b.
Proof. apply flat_map_app. Qed.

(** ** Words *)
Lemma not_blank_32 c : ~ blank_char c -> c <> " "%char.
Proof. intros H ->. apply H. left. reflexivity. Qed.
Lemma smem_has c s : smem c s = true -> has_char c s.
Proof.
  induction s as [|a s IH]; simpl; [discriminate|]. intros H. apply has_char_cons. apply orb_true_iff in H as [H|H].
  - left. apply Ascii.eqb_eq in H. congruence.
  - right. auto.
Qed.
Lemma word_no_smem c w : blank_char c -> a_word w -> smem c w = false.
Proof.
  intros B (_ & H). destruct (smem c w) eqn:E; [|reflexivity]. destruct (H c); [apply smem_has, E|exact B].
Qed.
Lemma has_char_last a c : has_char c (a +++ String c "").
Proof. exists a, "". reflexivity. Qed.
Lemma word_trimmed w : a_word w -> trimmed w.
Proof.
  intros (_ & H) c B. split; intros r ->; apply (H c); auto.
  - exists "", r. reflexivity.
  - apply has_char_last.
Qed.
Lemma word_trim w : a_word w -> trim_space w = w.
Proof. intros H. apply trimmed_trim, word_trimmed, H. Qed.
Lemma words_same ws : Forall a_word ws -> filter nonblank (map trim_space ws) = ws.
Proof.
  induction 1 as [|w ws Hw _ IH]; [reflexivity|]. simpl. rewrite (word_trim _ Hw).
  assert (nonblank w = true) as ->. { unfold nonblank. destruct Hw as (Hw & _). apply seqb_neq in Hw. rewrite Hw. reflexivity. }
  rewrite IH. reflexivity.
Qed.
Lemma words_trimmed ws : Forall a_word ws -> trimmed (join " " ws).
Proof. intros H. rewrite <- (words_same ws H). apply joined_trimmed. Qed.
Lemma words_nonblank ws : Forall a_word ws -> ws <> [] -> nonblank (join " " ws) = true.
Proof.
  intros H N. unfold nonblank. destruct (join " " ws =?s "") eqn:E; [|reflexivity]. apply seqb_eq in E.
  rewrite <- (words_same ws H) in E. apply join_nonblank_nil in E. rewrite (words_same ws H) in E. contradiction.
Qed.
Lemma spaced_trimmed c : spaced c -> trimmed c.
Proof. intros (ws & H & ->). apply words_trimmed, H. Qed.

(** ** Lines *)
Definition good_line (s : string) : Prop := s = "" \/ trim_space s <> "".
Lemma merge_trimmed a x : trimmed a -> good_line x -> trimmed (merge_comment a x).
Proof.
  intros Ha Hx. unfold merge_comment. destruct (a =?s "") eqn:Ea; [apply trim_trimmed|].
  destruct (x =?s "") eqn:Ex; [apply trim_trimmed|]. rewrite (trimmed_trim _ Ha). apply seqb_neq in Ea, Ex.
  destruct Hx as [Hx|Hx]; [contradiction|]. apply trimmed_app; [exact Ha|apply trim_trimmed|exact Ea|exact Hx].
Qed.
Lemma fold_trimmed l : Forall good_line l -> forall a, trimmed a -> trimmed (fold_left merge_comment l a).
Proof. induction 1 as [|x l Hx _ IH]; intros a Ha; simpl; [exact Ha|]. apply IH, merge_trimmed; assumption. Qed.
Lemma good_fold l : Forall good_line l -> fold_left merge_comment l "" = join " " (filter nonblank (map trim_space l)).
Proof. intros H. rewrite <- merge_all. symmetry. apply trimmed_trim, fold_trimmed; [exact H|apply trimmed_nil]. Qed.

Definition line_of (g : list string) : string := " " +++ join " " g.
Lemma line_trim g : Forall a_word g -> trim_space (line_of g) = join " " g.
Proof. intros H. unfold line_of. rewrite trim_blank. apply trimmed_trim, words_trimmed, H. Qed.
Lemma line_good g : Forall a_word g -> g <> [] -> good_line (line_of g).
Proof.
  intros H N. right. rewrite line_trim by exact H. pose proof (words_nonblank g H N) as E. unfold nonblank in E.
  intros E'. rewrite E' in E. discriminate.
Qed.
Definition joined (l : list string) : string := join " " (filter nonblank (map trim_space l)).
Lemma joined_line g l : Forall a_word g -> g <> [] ->
  joined (line_of g :: l) = match filter nonblank (map trim_space l) with [] => join " " g | _ => join " " g +++ " " +++ joined l end.
Proof.
  intros H N. unfold joined. simpl. rewrite line_trim, (words_nonblank g H N) by exact H.
  destruct (filter nonblank (map trim_space l)) as [|x r]; [reflexivity|]. rewrite join_cons by discriminate. reflexivity.
Qed.

Definition cur_of (g : list string) : option string := match g with [] => None | _ => Some (line_of g) end.
Lemma line_snoc g w : g <> [] -> line_of g +++ " " +++ w = line_of (g ++ [w]).
Proof. intros N. unfold line_of. rewrite join_app by (try discriminate; exact N). simpl (join " " [w]). rewrite !append_assoc. reflexivity. Qed.
Lemma flush_texts tab g : line_texts (tokens (flush tab (cur_of g))) = match g with [] => [] | _ => [line_of g] end.
Proof. destruct g; reflexivity. Qed.
Lemma wrap_joined tab maxcol toks : Forall a_word toks -> forall g col, Forall a_word g ->
  (g = [] -> col = 0%Z) -> (g <> [] -> (0 < col)%Z) -> g ++ toks <> [] ->
  let ls := line_texts (tokens (u_wrap tab maxcol col (cur_of g) toks)) in
  Forall good_line ls /\ joined ls = join " " (g ++ toks).
Proof.
  induction 1 as [|w toks Hw HF IH]; intros g col Hg Hc Hp N; cbn [u_wrap].
  - rewrite app_nil_r in *. rewrite flush_texts. destruct g as [|x g]; [contradiction|]. split.
    + constructor; [apply line_good; assumption|constructor].
    + rewrite joined_line by assumption. reflexivity.
  - destruct ((maxcol <=? col + slen w)%Z || (col =? 0)%Z) eqn:E.
    + assert (Forall a_word [w]) as H1 by (constructor; [exact Hw|constructor]).
      destruct (IH [w] (slen tab + 3 + slen w)%Z H1 ltac:(discriminate) ltac:(intros _; pose proof (slen_nonneg tab); pose proof (slen_nonneg w); lia) ltac:(discriminate)) as (F & J).
      change (Some (" " +++ w)) with (cur_of [w]).
      set (r := u_wrap tab maxcol (slen tab + 3 + slen w) (cur_of [w]) toks) in *. rewrite tokens_app, line_texts_app.
      destruct (maxcol <=? col + slen w)%Z eqn:Eb.
      * rewrite tokens_app, line_texts_app, flush_texts. simpl (line_texts (tokens [NL])). rewrite app_nil_r.
        destruct g as [|x g]; [split; assumption|]. set (G := x :: g) in *. change ([line_of G] ++ line_texts (tokens r)) with (line_of G :: line_texts (tokens r)).
        split; [constructor; [apply line_good; [exact Hg|discriminate]|exact F]|].
        rewrite joined_line by (try discriminate; exact Hg). rewrite J. change (w :: toks) with ([w] ++ toks).
        rewrite (join_app G) by discriminate.
        destruct (filter nonblank (map trim_space (line_texts (tokens r)))) eqn:El; [|reflexivity]. exfalso.
        unfold joined in J. rewrite El in J. simpl (join " " []) in J.
        assert (Forall a_word ([w] ++ toks)) as H2 by (constructor; assumption).
        pose proof (words_nonblank _ H2 ltac:(discriminate)) as B. rewrite <- J in B. discriminate.
      * simpl. destruct g as [|x g]; [split; assumption|]. simpl in E. apply Z.eqb_eq in E. exfalso.
        specialize (Hp ltac:(discriminate)). lia.
    + destruct g as [|x g]; [rewrite (Hc eq_refl) in E; rewrite orb_true_r in E; discriminate|].
      set (G := x :: g) in *. change (option_map (fun c => c +++ " " +++ w) (cur_of G)) with (Some (line_of G +++ " " +++ w)).
      rewrite line_snoc by discriminate.
      replace (Some (line_of (G ++ [w]))) with (cur_of (G ++ [w])) by reflexivity.
      replace (G ++ w :: toks) with ((G ++ [w]) ++ toks) by (rewrite <- app_assoc; reflexivity).
      apply IH; [apply Forall_app; split; [exact Hg|constructor; [exact Hw|constructor]]|intros H; destruct G; discriminate| |destruct G; discriminate].
      intros _. specialize (Hp ltac:(discriminate)). pose proof (slen_nonneg w). lia.
Qed.

(** ** Comments before an entry *)
Lemma spaced_split ws : ws <> [] -> Forall a_word ws -> split " " (join " " ws) = ws.
Proof.
  intros N H. apply (split_join " "); [exact N|]. intros x Hx. apply word_no_smem; [left; reflexivity|].
  exact (proj1 (Forall_forall _ _) H x Hx).
Qed.
Lemma spaced_no_nl ws : Forall a_word ws -> smem "010" (join " " ws) = false.
Proof.
  induction 1 as [|w ws Hw HF IH]; [reflexivity|]. destruct ws as [|x r].
  - simpl. apply word_no_smem; [|exact Hw]. right; vm_compute; split; repeat constructor.
  - change (join " " (w :: x :: r)) with (w +++ " " +++ join " " (x :: r)). rewrite smem_app, smem_app, IH.
    rewrite word_no_smem; [reflexivity|right; vm_compute; split; repeat constructor|exact Hw].
Qed.
Lemma spaced_contains c : spaced c -> contains nl c = false.
Proof. intros (ws & H & ->). rewrite contains_nl. apply spaced_no_nl, H. Qed.
Lemma comment_lines indent c maxcol pad : spaced c -> c <> "" -> (0 < maxcol)%Z ->
  let ls := line_texts (tokens (u_comment indent c maxcol pad)) in Forall good_line ls /\ joined ls = c.
Proof.
  intros S N M. pose proof (spaced_contains c S) as E. destruct S as (ws & H & ->).
  assert (ws <> []) as Nw by (intros ->; apply N; reflexivity).
  unfold u_comment. rewrite E. cbn [negb]. rewrite andb_true_r. destruct (maxcol <=? slen indent)%Z.
  - change (line_texts (tokens [Sp indent; C (" " +++ join " " ws); NL])) with [line_of ws]. split.
    + constructor; [apply line_good; assumption|constructor].
    + rewrite joined_line by assumption. reflexivity.
  - rewrite (spaced_split ws Nw H).
    destruct (wrap_joined (spaces (String.length indent)) maxcol ws H [] 0%Z (Forall_nil _) ltac:(reflexivity) ltac:(congruence) Nw)
      as (F & J).
    cbn [cur_of app] in F, J. cbv zeta. rewrite !tokens_app, !line_texts_app.
    set (ls := line_texts (tokens (u_wrap _ _ _ _ _))) in *. change (line_texts (tokens [NL])) with (@nil string). rewrite app_nil_r.
    destruct pad; [|rewrite app_nil_r; split; assumption].
    change (line_texts (tokens [Sp (spaces (String.length indent)); C ""; NL])) with [""]. split.
    + constructor; [left; reflexivity|]. apply Forall_app. split; [exact F|]. constructor; [left; reflexivity|constructor].
    + unfold joined in *. cbn [app map filter]. change (nonblank (trim_space "")) with false. cbv iota.
      rewrite map_app, filter_app. cbn [map filter]. change (nonblank (trim_space "")) with false. cbv iota.
      rewrite app_nil_r. exact J.
Qed.
Lemma u_comment_read indent c maxcol pad : spaced c -> (0 < maxcol)%Z ->
  junk_comment "" (tokens (if c =?s "" then [] else u_comment indent c maxcol pad)) = c.
Proof.
  intros S M. destruct (c =?s "") eqn:E; [apply seqb_eq in E; subst; reflexivity|]. apply seqb_neq in E.
  destruct (comment_lines indent c maxcol pad S E M) as (F & J). rewrite junk_comment_texts, good_fold by exact F. exact J.
Qed.
Lemma block_comment_read c : spaced c -> junk_comment "" (tokens (u_block_comment c)) = c.
Proof. intros S. apply u_comment_read; [exact S|lia]. Qed.
(** the comment before a parameter, whose first blanks are left out *)
Lemma comment3_tokens c : exists j, tokens (u_comment "   " c 100 false) = j ++ tokens (u_comment3 c) /\ Forall (fun t => tk_type t = NEWLINE) j.
Proof.
  unfold u_comment3. rewrite tokens_app. change (tokens [Sp "   "]) with (@nil token). rewrite app_nil_r.
  destruct (u_comment "   " c 100 false) as [|[] r]; try (exists []; split; [reflexivity|constructor]).
  destruct r as [|[] r]; try (exists []; split; [reflexivity|constructor]).
  exists [newline_tok]. split; [reflexivity|constructor; [reflexivity|constructor]].
Qed.
Lemma newlines_texts j : Forall (fun t => tk_type t = NEWLINE) j -> line_texts j = [].
Proof. induction 1 as [|t j H _ IH]; [reflexivity|]. unfold line_texts in *. simpl. rewrite H. exact IH. Qed.
Lemma u_comment3_read c : spaced c -> c <> "" -> junk_comment "" (tokens (u_comment3 c)) = c.
Proof.
  intros S N. destruct (comment_lines "   " c 100 false S N ltac:(lia)) as (F & J).
  destruct (comment3_tokens c) as (j & E & Hj). rewrite E, line_texts_app, (newlines_texts j Hj) in F, J.
  rewrite junk_comment_texts, good_fold by exact F. exact J.
Qed.
Lemma comment3_junk c : Forall junk (tokens (u_comment3 c)).
Proof.
  destruct (comment3_tokens c) as (j & E & _). pose proof (comment_junk "   " c 100 false) as H. rewrite E in H.
  apply Forall_app in H as [_ H]. exact H.
Qed.
