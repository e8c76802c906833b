(** Reading the text of a value gives the value back. *)
From Coq Require Import Permutation.
From Verif Require Import GoStr Outcome Value Schema Scalars Time Misc Model Scan ScanFacts Acts Parser
  SpecModel SpecMisc SpecText SpecOptions LiteralFacts OptionFacts Yields Unparser SpecUnparse UnparseFacts.

(** ** Escapes *)
Lemma json_escape_text : forall c, json_char c (json_escape c).
Proof.
  assert (forall n, n < 32 -> hex4 n (hex_digit (n / 16)) (hex_digit (n mod 16))) as H.
  { intros n Hn. exists (n / 16), (n mod 16).
    do 32 (destruct n as [|n]; [split; [reflexivity|split; reflexivity]|]). lia. }
  intros c. unfold json_escape. destruct (Ascii.eqb c """") eqn:E1; [apply Ascii.eqb_eq in E1; subst; apply jc_quote; reflexivity|].
  destruct (Ascii.eqb c "\") eqn:E2; [apply Ascii.eqb_eq in E2; subst; apply jc_backslash; reflexivity|].
  destruct (Nat.eqb_spec (nat_of_ascii c) 8); [apply jc_b; assumption|].
  destruct (Nat.eqb_spec (nat_of_ascii c) 12); [apply jc_f; assumption|].
  destruct (Nat.eqb_spec (nat_of_ascii c) 10); [apply jc_n; assumption|].
  destruct (Nat.eqb_spec (nat_of_ascii c) 13); [apply jc_r; assumption|].
  destruct (Nat.eqb_spec (nat_of_ascii c) 9); [apply jc_t; assumption|].
  destruct (Nat.ltb_spec (nat_of_ascii c) 32).
  - apply (jc_u c (hex_digit (nat_of_ascii c / 16)) (hex_digit (nat_of_ascii c mod 16))); [lia|apply H; assumption].
  - apply jc_plain; [lia| |]; intros ->; discriminate.
Qed.
Lemma json_text_escape s : json_text s (escape json_escape s).
Proof. induction s as [|c s IH]; [constructor|]. simpl. constructor; [apply json_escape_text|exact IH]. Qed.
Lemma json_unquote s : unquote (escape json_escape s) = Some s.
Proof. apply json_text_unquote, json_text_escape. Qed.

(** ** Sorting *)
Lemma insert_map {A B} (f : A -> B) k a l :
  insert_key (k, f a) (map (fun kv => (fst kv, f (snd kv))) l) = map (fun kv => (fst kv, f (snd kv))) (insert_key (k, a) l).
Proof.
  induction l as [|(k' & a') l IH]; [reflexivity|]. simpl. destruct (String.leb k k'); [reflexivity|]. simpl. rewrite IH. reflexivity.
Qed.
Lemma sort_map {A B} (f : A -> B) (l : list (string * A)) :
  sort_keys (map (fun kv => (fst kv, f (snd kv))) l) = map (fun kv => (fst kv, f (snd kv))) (sort_keys l).
Proof. induction l as [|(k & a) l IH]; [reflexivity|]. simpl. unfold sort_keys in *. rewrite IH. apply insert_map. Qed.
Lemma insert_perm {A} (x : string * A) l : Permutation (x :: l) (insert_key x l).
Proof.
  induction l as [|y l IH]; [reflexivity|]. simpl. destruct (String.leb (fst x) (fst y)); [reflexivity|].
  rewrite perm_swap. apply perm_skip, IH.
Qed.
Lemma sort_perm {A} (l : list (string * A)) : Permutation l (sort_keys l).
Proof. induction l as [|x l IH]; [reflexivity|]. simpl. rewrite <- insert_perm. apply perm_skip, IH. Qed.

(** ** Values *)
Fixpoint norm (v : value) : value :=
  match v with
  | VStr s => VPStr s
  | VArr l => VArr (map norm l)
  | VMap l => VMap (sort_keys (map (fun kv => (fst kv, norm (snd kv))) l))
  | v => v
  end.
Section V.
Variable X : ext.
Variable dec_text : decimal -> string.
Notation writable_value := (writable_value X dec_text).
Notation u_json := (u_json dec_text).
Notation u_pretty := (u_pretty dec_text).

Lemma norm_same v : writable_value v -> same_value v (norm v).
Proof.
  induction v as [| | | | | | | | | | | |l IH|l IH] using value_ind'; intros H; inversion H; subst; simpl;
    repeat match goal with T : text_of _ _ |- _ => destruct T as [T|T]; inversion T; subst end; try constructor;
    try (left; reflexivity); try (right; reflexivity).
  - rewrite Forall_forall in *. induction l as [|x l IHl]; simpl; constructor.
    + apply IH; [left; reflexivity|]. apply H1. left. reflexivity.
    + apply IHl; [intros y Hy; apply IH; right; exact Hy| |intros y Hy; apply H1; right; exact Hy].
      apply wv_arr. apply Forall_forall. intros y Hy. apply H1. right. exact Hy.
  - rewrite sort_map. apply (sv_map _ (sort_keys l)); [apply sort_perm|].
    assert (Forall (fun kv => same_value (snd kv) (norm (snd kv))) (sort_keys l)) as F.
    { eapply Permutation_Forall; [apply sort_perm|]. rewrite Forall_forall in *. intros x Hx. apply IH; [exact Hx|]. apply H2, Hx. }
    clear - F. induction F as [|x l' Hx _ IH']; simpl; constructor; [split; [reflexivity|exact Hx]|exact IH'].
Qed.

Lemma items_app a b l1 l2 : items X a l1 -> items X b l2 -> items X (a ++ b) (l1 ++ l2).
Proof.
  induction 1 as [|t ts l B _ IH|t v ts l L _ IH]; intros H; simpl; [exact H|apply items_skip; auto|].
  rewrite <- app_assoc. apply items_cons; auto.
Qed.
Lemma join_literals sep l : Forall blank (tokens sep) -> forall vs, Forall2 (fun p v => literal X (tokens p) v) l vs ->
  items X (tokens (join_pieces sep l)) vs.
Proof.
  intros S vs. induction 1 as [|p v l vs H HF IH]; [constructor|]. destruct HF as [|p' v' l vs H' HF].
  - simpl. rewrite <- (app_nil_r (tokens p)). apply items_cons; [exact H|constructor].
  - change (join_pieces sep (p :: p' :: l)) with (p ++ sep ++ join_pieces sep (p' :: l)). rewrite !tokens_app.
    apply items_cons; [exact H|]. apply blanks_items; [exact S|exact IH].
Qed.
Lemma join_entries sep col l : Forall blank (tokens sep) -> tokens col = [mkTok COLON ":"] ->
  forall vs, Forall2 (fun p v => fst p = fst v /\ literal X (tokens (snd p)) (snd v)) l vs ->
  entries X (tokens (join_pieces sep (map (fun kv => J (fst kv) :: col ++ snd kv) l))) vs.
Proof.
  intros S Ec vs. induction 1 as [|(k & p) (k1 & v) l vs (E & H) HF IH]; [constructor|]. simpl in E, H. subst k1.
  assert (forall r rest, entries X (tokens rest) r -> entries X (tokens ((J k :: col ++ p) ++ rest)) ((k, v) :: r)) as Hd.
  { intros r rest Hr. simpl ((_ :: _) ++ rest). rewrite tokens_cons, !tokens_app, Ec. simpl (piece_tokens _).
    rewrite <- !app_assoc. simpl. apply entries_cons; [apply json_unquote|reflexivity|exact H|exact Hr]. }
  destruct HF as [|p' v' l vs H' HF].
  - simpl map. simpl join_pieces. rewrite <- (app_nil_r (J k :: col ++ p)). apply Hd. constructor.
  - change (join_pieces sep (map (fun kv => J (fst kv) :: col ++ snd kv) ((k, p) :: p' :: l)))
      with ((J k :: col ++ p) ++ sep ++ join_pieces sep (map (fun kv => J (fst kv) :: col ++ snd kv) (p' :: l))).
    apply Hd. rewrite tokens_app. apply blanks_entries; [exact S|exact IH].
Qed.
Lemma keys_sorted {A} (f : value -> A) l : NoDup (map fst l) -> NoDup (map fst (sort_keys (map (fun kv => (fst kv, f (snd kv))) l))).
Proof.
  intros N. rewrite sort_map, map_map. simpl. eapply Permutation_NoDup; [|exact N]. apply Permutation_map, sort_perm.
Qed.
Lemma sorted_forall2 (f : value -> list piece) l : Forall (fun kv => literal X (tokens (f (snd kv))) (norm (snd kv))) l ->
  Forall2 (fun (p : string * list piece) (v : string * value) => fst p = fst v /\ literal X (tokens (snd p)) (snd v))
    (sort_keys (map (fun kv => (fst kv, f (snd kv))) l)) (sort_keys (map (fun kv => (fst kv, norm (snd kv))) l)).
Proof.
  intros H. rewrite !sort_map. apply (Permutation_Forall (sort_perm l)) in H.
  induction H as [|x l' Hx _ IH]; simpl; constructor; [split; [reflexivity|exact Hx]|exact IH].
Qed.
Lemma assigned_sorted l : NoDup (map fst l) ->
  VMap (sort_keys (map (fun kv => (fst kv, norm (snd kv))) l)) = VMap (assigned (sort_keys (map (fun kv => (fst kv, norm (snd kv))) l))).
Proof. intros N. rewrite assigned_fresh; [reflexivity|]. apply keys_sorted, N. Qed.

Lemma json_literal v : writable_value v -> literal X (tokens (u_json v)) (norm v).
Proof.
  induction v as [| | | | | | | | | | | |l IH|l IH] using value_ind'; intros H; inversion H; subst;
    repeat match goal with T : text_of _ _ |- _ => destruct T as [T|T]; inversion T; subst end.
  - apply lit_null.
  - simpl. destruct b; constructor.
  - simpl. apply lit_string, json_unquote.
  - simpl. apply lit_string, json_unquote.
  - simpl. apply lit_number. assumption.
  - cbn [Unparser.u_json norm]. rewrite tokens_cons, tokens_app. simpl. apply lit_array; [reflexivity|reflexivity|].
    apply join_literals; [constructor; [right; reflexivity|constructor]|].
    clear H. induction IH as [|x l Hx _ IH]; simpl; [constructor|]. inversion H1; subst. constructor; auto.
  - cbn [Unparser.u_json norm]. rewrite tokens_cons, tokens_app. rewrite assigned_sorted by assumption. simpl piece_tokens.
    change (tokens [P CLOSE_BRACE]) with [mkTok CLOSE_BRACE "}"].
    apply (lit_object X (mkTok OPEN_BRACE "{") (mkTok CLOSE_BRACE "}")); [reflexivity|reflexivity|].
    apply (join_entries [P COMMA] [P COLON]); [constructor; [right; reflexivity|constructor]|reflexivity|].
    apply sorted_forall2. rewrite Forall_forall in *. auto.
Qed.
Lemma blank_nl i : Forall blank (tokens [P COMMA; NL; Sp i]).
Proof. constructor; [right; reflexivity|]. constructor; [left; reflexivity|constructor]. Qed.
Lemma pretty_literal v : forall ind, writable_value v -> literal X (tokens (u_pretty ind v)) (norm v).
Proof.
  induction v as [| | | | | | | | | | | |l IH|l IH] using value_ind'; intros ind H;
    try (exact (json_literal _ H)); inversion H; subst;
    repeat match goal with T : text_of _ _ |- _ => destruct T as [T|T]; inversion T; subst end.
  - destruct l as [|x l]; [apply (lit_array X (mkTok OPEN_BRACKET "[") (mkTok CLOSE_BRACKET "]") []); [reflexivity|reflexivity|constructor]|].
    set (L := x :: l) in *. assert (u_pretty ind (VArr L) = P OPEN_BRACKET :: NL :: Sp (ind +++ "  ")
      :: join_pieces [P COMMA; NL; Sp (ind +++ "  ")] (map (u_pretty (ind +++ "  ")) L) ++ [NL; Sp ind; P CLOSE_BRACKET]) as -> by reflexivity.
    rewrite !tokens_cons, tokens_app. cbn [piece_tokens app punct_text]. cbn [norm].
    change (tokens [NL; Sp ind; P CLOSE_BRACKET]) with ([newline_tok] ++ [mkTok CLOSE_BRACKET "]"]).
    rewrite app_assoc. rewrite app_comm_cons.
    apply lit_array; [reflexivity|reflexivity|]. apply items_skip; [left; reflexivity|].
    apply items_skip_end; [|left; reflexivity]. apply join_literals; [apply blank_nl|].
    clear H. clearbody L. induction IH as [|y L Hy _ IHL]; simpl; [constructor|]. inversion H1; subst. constructor; auto.
  - destruct l as [|x l]; [apply (lit_object X (mkTok OPEN_BRACE "{") (mkTok CLOSE_BRACE "}") [] []); [reflexivity|reflexivity|constructor]|].
    set (L := x :: l) in *. assert (u_pretty ind (VMap L) = P OPEN_BRACE :: NL :: Sp (ind +++ "  ")
      :: join_pieces [P COMMA; NL; Sp (ind +++ "  ")]
           (map (fun kv => J (fst kv) :: [P COLON; Sp " "] ++ snd kv)
              (sort_keys (map (fun kv => (fst kv, u_pretty (ind +++ "  ") (snd kv))) L)))
      ++ [NL; Sp ind; P CLOSE_BRACE]) as -> by reflexivity.
    rewrite !tokens_cons, tokens_app. cbn [piece_tokens app punct_text]. cbn [norm].
    change (tokens [NL; Sp ind; P CLOSE_BRACE]) with ([newline_tok] ++ [mkTok CLOSE_BRACE "}"]).
    rewrite app_assoc. rewrite app_comm_cons. rewrite assigned_sorted by assumption.
    apply lit_object; [reflexivity|reflexivity|]. apply entries_skip; [discriminate|discriminate|discriminate|].
    apply entries_skip_end; [|discriminate|discriminate|discriminate].
    apply (join_entries _ [P COLON; Sp " "]); [apply blank_nl|reflexivity|].
    apply sorted_forall2. rewrite Forall_forall in *. auto.
Qed.
Lemma y_literal ps v rest : literal X (tokens ps) v ->
  yields (fun n => parse_literal_value X n) None (tokens ps ++ rest) v None rest.
Proof.
  intros L. apply (y_acts _ (fun n => case_list None (f_literal X n)) _ _ _ (S (length (tokens ps)))).
  - intros n. apply a_literal_value.
  - intros n Hn. rewrite strip_tokens_app. destruct (literal_first _ _ _ L) as (t & ts & E & _). rewrite E in *. simpl.
    apply literal_exact; [simpl in Hn; lia|exact L].
Qed.
End V.
