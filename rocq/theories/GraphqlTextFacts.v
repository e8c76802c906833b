(** The text of a GraphQL document and its tokens. *)
From Verif Require Import GoStr Outcome Value Schema Model Generator Graphql GraphqlImport
  SpecModel SpecMisc SpecPV SpecGen SpecGraphqlText ModelFacts PVFacts GraphqlFacts.
From Coq Require Import Lia.

(** ** Tokens are unique *)
Lemma span_unique (P : ascii -> Prop) : forall w w' r r', all_chars P w -> all_chars P w' ->
  (forall c x, r = String c x -> ~ P c) -> (forall c x, r' = String c x -> ~ P c) -> w +++ r = w' +++ r' -> w = w' /\ r = r'.
Proof.
  induction w as [|c w IH]; intros [|c' w'] r r' A A' N N' E; cbn in E.
  - auto.
  - inversion A'; subst. destruct (N c' (w' +++ r') eq_refl). assumption.
  - inversion A; subst. destruct (N' c (w +++ r) eq_refl). assumption.
  - injection E as -> E. inversion A; inversion A'; subst. destruct (IH w' r r') as [-> ->]; auto.
Qed.
Lemma no_char_all b : no_char "010" b -> all_chars (fun c => c <> "010"%char) b.
Proof.
  induction b as [|c b IH]; intros N; [constructor|]. constructor.
  - intros ->. apply N. exists "", b. reflexivity.
  - apply IH. intros (x & y & E). apply N. exists (String c x), y. rewrite E. reflexivity.
Qed.
Lemma start_not c : gname_start c -> ~ In c gignored /\ ~ In c gpuncts /\ c <> "#"%char.
Proof.
  unfold gname_start. intros H. repeat split; intros I; cbn in I;
    repeat (destruct I as [I|I]; [subst c; cbn in H; destruct H as [H|[H|H]]; [lia|lia|discriminate]|]); try contradiction.
  subst c. cbn in H. destruct H as [H|[H|H]]; [lia|lia|discriminate].
Qed.
Lemma ignored_not c : In c gignored -> ~ In c gpuncts /\ c <> "#"%char.
Proof. intros I. cbn in I. repeat (destruct I as [<- |I]; [split; [cbn; intuition discriminate|discriminate]|]). contradiction. Qed.
Lemma punct_not c : In c gpuncts -> c <> "#"%char.
Proof. intros I. cbn in I. repeat (destruct I as [<- |I]; [discriminate|]). contradiction. Qed.
Definition first_step (c : ascii) (s : string) (ts : list gtok) : Prop :=
  (In c gignored /\ lexes s ts)
  \/ (c = "#"%char /\ exists b r, s = b +++ r /\ no_char "010" b /\ ends_line r /\ lexes r ts)
  \/ (In c gpuncts /\ exists ts', ts = TkPunct c :: ts' /\ lexes s ts')
  \/ (gname_start c /\ exists w r ts', s = w +++ r /\ all_chars gname_char w /\ ends_name r /\ ts = TkName (String c w) :: ts' /\ lexes r ts').
Lemma lexes_inv s ts : lexes s ts -> match s with "" => ts = [] | String c s' => first_step c s' ts end.
Proof.
  intros H. destruct H as [|c s ts I L|b s ts N E L|c s ts I L|n s ts (c & w & -> & S & A) E L].
  - reflexivity.
  - left. auto.
  - right. left. split; [reflexivity|]. exists b, s. auto.
  - right. right. left. split; [exact I|]. exists ts. auto.
  - right. right. right. split; [exact S|]. exists w, s, ts. auto.
Qed.
Lemma app_len (a b : string) : String.length (a +++ b) = (String.length a + String.length b)%nat.
Proof. induction a as [|c a IH]; [reflexivity|]. cbn. rewrite IH. reflexivity. Qed.
Lemma lexes_fun_len : forall n s ts ts', (String.length s <= n)%nat -> lexes s ts -> lexes s ts' -> ts = ts'.
Proof.
  induction n as [|n IH]; intros [|c s] ts ts' Hn H H'; try (cbn in Hn; lia).
  - apply lexes_inv in H, H'. congruence.
  - apply lexes_inv in H, H'. congruence.
  - apply lexes_inv in H, H'. cbn in Hn. assert (Hs : (String.length s <= n)%nat) by lia.
    assert (Hr : forall w r, s = w +++ r -> (String.length r <= n)%nat) by (intros w r ->; rewrite app_len in Hs; lia).
    destruct H as [[I L]|[[-> (b & r & E & N & En & L)]|[[I (t & -> & L)]|[S (w & r & t & E & A & En & -> & L)]]]];
    destruct H' as [[I' L']|[[X (b' & r' & E' & N' & En' & L')]|[[I' (t' & -> & L')]|[S' (w' & r' & t' & E' & A' & En' & -> & L')]]]];
    try subst c; try (exfalso;
      first [ destruct (ignored_not _ I); congruence | destruct (ignored_not _ I'); congruence
            | exact (punct_not _ I eq_refl) | exact (punct_not _ I' eq_refl)
            | destruct (ignored_not _ I); contradiction | destruct (ignored_not _ I'); contradiction
            | destruct (start_not _ S) as (? & ? & ?); congruence | destruct (start_not _ S') as (? & ? & ?); congruence
            | destruct (start_not _ S) as (? & ? & ?); contradiction | destruct (start_not _ S') as (? & ? & ?); contradiction ]).
    + exact (IH s _ _ Hs L L').
    + assert (Q : b = b' /\ r = r').
      { apply (span_unique (fun c => c <> "010"%char)); [apply no_char_all; exact N|apply no_char_all; exact N'| | |congruence].
        - intros c x F G. exact (G (En c x F)).
        - intros c x F G. exact (G (En' c x F)). }
      destruct Q as [-> ->]. exact (IH r' _ _ (Hr _ _ E') L L').
    + rewrite (IH s _ _ Hs L L'). reflexivity.
    + destruct (span_unique gname_char w w' r r' A A' En En') as [-> ->]; [congruence|]. rewrite (IH r' _ _ (Hr _ _ E') L L'). reflexivity.
Qed.
Lemma lexes_fun s ts ts' : lexes s ts -> lexes s ts' -> ts = ts'.
Proof. exact (lexes_fun_len (String.length s) s ts ts' (le_n _)). Qed.

(** ** The tokens of what is written *)
Lemma concat_cons a l : String.concat "" (a :: l) = a +++ String.concat "" l.
Proof. destruct l as [|b l]; cbn [String.concat]; [symmetry; apply append_nil_r|reflexivity]. Qed.
Lemma lex_each (A : Type) (f : A -> string) (g : A -> list gtok) (l : list A) s ts :
  (forall x s ts, In x l -> lexes s ts -> lexes (f x +++ s) (g x ++ ts)) -> lexes s ts ->
  lexes (String.concat "" (map f l) +++ s) (flat_map g l ++ ts).
Proof.
  induction l as [|a l IH]; intros H L; [exact L|]. cbn [map flat_map]. rewrite concat_cons, append_assoc, <- app_assoc.
  apply H; [left; reflexivity|]. apply IH; [|exact L]. intros x u us I. apply H. right. exact I.
Qed.
Lemma all_chars_dec s : forallb (fun c => let n := nat_of_ascii c in ((65 <=? n) && (n <=? 90)) || ((97 <=? n) && (n <=? 122)) || ((48 <=? n) && (n <=? 57)) || (Ascii.eqb c "_"))%nat%bool (list_ascii_of_string s) = true -> all_chars gname_char s.
Proof.
  induction s as [|c s IH]; intros H; [constructor|]. cbn [list_ascii_of_string forallb] in H. apply andb_true_iff in H as [H T]. constructor; [|exact (IH T)].
  clear T IH. unfold gname_char, gname_start. apply orb_true_iff in H as [H|H]; [apply orb_true_iff in H as [H|H]; [apply orb_true_iff in H as [H|H]|]|].
  - apply andb_true_iff in H as [A B]. apply Nat.leb_le in A, B. left. left. lia.
  - apply andb_true_iff in H as [A B]. apply Nat.leb_le in A, B. left. right. left. lia.
  - apply andb_true_iff in H as [A B]. apply Nat.leb_le in A, B. right. lia.
  - apply Ascii.eqb_eq in H. left. right. right. exact H.
Qed.
Lemma gname_lit c s : gname_start c -> all_chars gname_char s -> gname (String c s).
Proof. intros A B. exists c, s. auto. Qed.
Ltac lit_name := apply gname_lit; [unfold gname_start; cbn; lia|apply all_chars_dec; reflexivity].
Lemma not_char c : (forall k, In k ("#"%char :: gignored ++ gpuncts) -> c = k -> ~ gname_char c).
Proof.
  intros k I -> H. unfold gname_char, gname_start in H. cbn in I.
  repeat (destruct I as [<- |I]; [cbn in H; destruct H as [[H|[H|H]]|H]; [lia|lia|discriminate|lia]|]). contradiction.
Qed.
Lemma ends_at k s : In k ("#"%char :: gignored ++ gpuncts) -> ends_name (String k s).
Proof. intros I c r E. injection E as <- _. exact (not_char k k I eq_refl). Qed.
Lemma lex_name n k s ts : gname n -> In k ("#"%char :: gignored ++ gpuncts) -> lexes (String k s) ts -> lexes (n +++ String k s) (TkName n :: ts).
Proof. intros G I L. apply lx_name; [exact G|apply ends_at; exact I|exact L]. Qed.
Ltac flat := cbn [append app]; rewrite ?append_assoc; cbn [append app].
Ltac skip := apply lx_skip; [cbn; tauto|].
Ltac punct := apply lx_punct; [cbn; tauto|].
Ltac name := apply lex_name; [assumption|cbn; tauto|].

Definition ref_toks (r : gref) : list gtok :=
  match r with RName n => [TkName n] | RList n => [TkPunct "["; TkName n; TkPunct "!"; TkPunct "]"] end.
Definition bang (r : bool) : list gtok := if r then [TkPunct "!"] else [].
Definition field_toks (x : string * string * gref * bool) : list gtok :=
  let '(f, _, t, r) := x in TkName f :: TkPunct ":" :: ref_toks t ++ bang r.
Definition ref_ok (r : gref) : Prop := match r with RName n | RList n => gname n end.
Definition field_ok (x : string * string * gref * bool) : Prop := let '(f, c, t, r) := x in gname f /\ no_char "010" c /\ ref_ok t.
Definition def_ok (d : gdef) : Prop :=
  match d with
  | DEnum n l => gname n /\ l <> [] /\ forall s, In s l -> gname s /\ ~ In s ["true"; "false"; "null"]
  | DType n l => gname n /\ l <> [] /\ forall x, In x l -> field_ok x
  | DUnion n l => gname n /\ l <> [] /\ forall s, In s l -> gname s
  end.
Lemma lex_bang (r : bool) k s ts : In k ("#"%char :: gignored ++ gpuncts) -> lexes (String k s) ts ->
  exists k' s', (if r then "!" else "") +++ String k s = String k' s' /\ In k' ("#"%char :: gignored ++ gpuncts) /\ lexes (String k' s') (bang r ++ ts).
Proof.
  intros I L. destruct r; [|exists k, s; auto]. exists "!"%char, (String k s). split; [reflexivity|]. split; [cbn; tauto|]. cbn [bang app]. punct. exact L.
Qed.
Lemma lex_ref t k s ts : ref_ok t -> In k ("#"%char :: gignored ++ gpuncts) -> lexes (String k s) ts -> lexes (ref_text t +++ String k s) (ref_toks t ++ ts).
Proof.
  intros R I L. destruct t as [n|n]; cbn [ref_text ref_toks app ref_ok] in *; [apply lex_name; assumption|].
  rewrite !append_assoc. cbn [append]. punct. name. punct. punct. exact L.
Qed.
Lemma lex_field f c t (r : bool) s ts : gname f -> no_char "010" c -> ref_ok t -> lexes s ts ->
  lexes (((if negb (c =?s "") then "  # " +++ c +++ nl else "") +++ "  " +++ f +++ ": " +++ ref_text t +++ (if r then "!" else "") +++ nl) +++ s)
    (field_toks (f, c, t, r) ++ ts).
Proof.
  intros F C R L.
  assert (M : lexes (String " " (String " " (f +++ String ":" (String " " (ref_text t +++ (if r then "!" else "") +++ String "010" s))))) (field_toks (f, c, t, r) ++ ts)).
  { skip. skip. cbn [field_toks app]. name. punct. skip. rewrite <- app_assoc.
    destruct (lex_bang r "010" s ts) as (k & u & -> & I & L'); [cbn; tauto|skip; exact L|]. apply lex_ref; assumption. }
  unfold nl. rewrite !append_assoc. cbn [append]. destruct (c =?s "") eqn:E; cbn [negb].
  - cbn [append]. exact M.
  - cbn [append]. rewrite ?append_assoc. cbn [append]. skip. skip.
    match goal with |- lexes (String "#" (String " " (c +++ ?x))) _ => change (String " " (c +++ x)) with ((String " " c) +++ x) end.
    apply lx_comment.
    + apply no_char_smem. cbn. apply no_char_smem in C. exact C.
    + intros k u X. injection X as <- _. reflexivity.
    + skip. exact M.
Qed.
Lemma ref_tokens t (r : bool) : type_tokens (if r then GNonNull (ref_type t) else ref_type t) (ref_toks t ++ bang r).
Proof.
  assert (R : type_tokens (ref_type t) (ref_toks t)).
  { destruct t as [n|n]; cbn; [constructor|]. apply (tt_list (GNonNull (GNamed n)) ([TkName n] ++ [TkPunct "!"])). apply tt_some. constructor. }
  destruct r; cbn [bang]; [apply tt_some; exact R|rewrite app_nil_r; exact R].
Qed.
Lemma fields_toks l : fields_tokens (map (fun x : string * string * gref * bool =>
      let '(f, _, t, r) := x in mkGField f None (if r then GNonNull (ref_type t) else ref_type t)) l) (flat_map field_toks l).
Proof.
  induction l as [|[[[f c] t] r] l IH]; [constructor|]. cbn [map flat_map field_toks app]. apply (ft_field f _ (ref_toks t ++ bang r)); [apply ref_tokens|exact IH].
Qed.
Lemma values_toks l : values_tokens (map (fun s => (s, None)) l) (flat_map (fun s => [TkName s]) l).
Proof. induction l as [|a l IH]; [constructor|]. cbn. constructor. exact IH. Qed.
Lemma members_toks : forall l a, members_tokens (a :: l) (TkName a :: flat_map (fun s => [TkPunct "|"; TkName s]) l).
Proof. induction l as [|b l IH]; intros a; [constructor|]. cbn. apply mt_more. apply IH. Qed.

Lemma lex_def d s ts : def_ok d -> lexes s ts -> exists l, defn_tokens (defn_of d) l /\ lexes (gql_def_text d +++ s) (l ++ ts).
Proof.
  intros D L. destruct d as [n l|n l|n l]; destruct D as (G & Ne & F).
  - exists (TkName "enum" :: TkName n :: TkPunct "{" :: flat_map (fun s => [TkName s]) l ++ [TkPunct "}"]). split.
    + apply dt_enum; [destruct l; [congruence|discriminate]| |apply values_toks].
      intros v d I. apply in_map_iff in I as (x & E & I). injection E as -> _. apply (F v I).
    + cbn [gql_def_text app]. unfold nl. rewrite !append_assoc. apply (lex_name "enum" " "); [lit_name|cbn; tauto|]. skip.
      cbn [append]. name. skip. punct. skip. rewrite <- app_assoc. apply lex_each.
      * intros x u us I Lu. flat. skip. skip. apply lex_name; [apply (F x I)|cbn; tauto|]. skip. exact Lu.
      * cbn [app append]. punct. skip. skip. exact L.
  - exists (TkName "type" :: TkName n :: TkPunct "{" :: flat_map field_toks l ++ [TkPunct "}"]). split.
    + apply dt_object; [destruct l as [|[[[? ?] ?] ?] ?]; [congruence|discriminate]|apply fields_toks].
    + cbn [gql_def_text app]. unfold nl at 1 4 5. rewrite !append_assoc. apply (lex_name "type" " "); [lit_name|cbn; tauto|]. skip.
      cbn [append]. name. skip. punct. skip. rewrite <- app_assoc. apply lex_each.
      * intros [[[f c] t] r] u us I Lu. destruct (F _ I) as (A & B & C). apply lex_field; assumption.
      * cbn [app append]. punct. skip. skip. exact L.
  - destruct l as [|a l]; [congruence|]. exists (TkName "union" :: TkName n :: TkPunct "=" :: TkName a :: flat_map (fun s => [TkPunct "|"; TkName s]) l). split.
    + apply dt_union. apply members_toks.
    + cbn [gql_def_text app]. unfold nl. rewrite !append_assoc. apply (lex_name "union" " "); [lit_name|cbn; tauto|]. skip.
      cbn [append]. name. skip. punct. skip. do 4 skip. apply lex_name; [apply (F a (or_introl eq_refl))|cbn; tauto|]. skip. apply lex_each.
      * intros x u us I Lu. flat. skip. skip. punct. skip. apply lex_name; [apply (F x (or_intror I))|cbn; tauto|]. skip. exact Lu.
      * cbn [append]. skip. exact L.
Qed.
Lemma lex_scalars l : (forall n, In n l -> gname n) ->
  exists ts, doc_tokens (map GScalar l) ts /\ lexes (String.concat "" (map (fun s => "scalar " +++ s +++ nl) l)) ts.
Proof.
  induction l as [|a l IH]; intros H; [exists []; split; constructor|]. destruct IH as (ts & D & L); [intros n I; apply H; right; exact I|].
  exists ([TkName "scalar"; TkName a] ++ ts). split; [apply (dc_cons (GScalar a) [TkName "scalar"; TkName a]); [constructor|exact D]|].
  cbn [map]. rewrite concat_cons. unfold nl at 1. rewrite !append_assoc. apply (lex_name "scalar" " "); [lit_name|cbn; tauto|]. skip.
  cbn [append]. apply lex_name; [apply H; left; reflexivity|cbn; tauto|]. skip. exact L.
Qed.
Lemma doc_denoted ds scalars : (forall d, In d ds -> def_ok d) -> (forall n, In n scalars -> gname n) -> denotes (gql_text ds scalars) (gql_doc ds scalars).
Proof.
  intros H S. destruct (lex_scalars scalars S) as (ts & D & L). unfold gql_text, gql_doc, denotes.
  induction ds as [|d ds IH]; [exists ts; auto|]. destruct IH as (us & L' & D'); [intros x I; apply H; right; exact I|].
  destruct (lex_def d _ _ (H d (or_introl eq_refl)) L') as (l & A & B). exists (l ++ us). split.
  - cbn [map]. rewrite concat_cons, append_assoc. exact B.
  - cbn [map app]. constructor; assumption.
Qed.

(** ** From the model *)
Section Model.
Context (conf : string -> string) (sch : schema) (m : model) (Hm : new_model sch = Ok m) (NP : named_plainly conf sch).
Lemma custom_ok used name dflt t used' : custom_scalar conf used name dflt = (t, used') -> gname dflt -> (forall n, In n used -> gname n) ->
  gname t /\ forall n, In n used' -> gname n.
Proof.
  unfold custom_scalar. intros H G U. destruct (conf name =?s "") eqn:E; cbn [negb] in H; injection H as <- <-; [auto|].
  destruct (proj1 NP name) as [C|C]; [rewrite C in E; discriminate|]. split; [exact C|]. intros n I.
  destruct (str_mem (conf name) used); [exact (U n I)|]. apply in_app_or in I as [I|[<- |[]]]; [exact (U n I)|exact C].
Qed.
Lemma scalar_ok used name t used' : scalar_type conf used name = (t, used') -> (forall n, In n used -> gname n) ->
  (t = "" \/ gname t) /\ forall n, In n used' -> gname n.
Proof.
  unfold scalar_type. intros H U.
  repeat match type of H with (if ?b then _ else _) = _ => destruct b end;
    try (apply custom_ok in H as [H1 H2]; [auto|lit_name|exact U]);
    injection H as <- <-; (split; [|exact U]); try (left; reflexivity); right; lit_name.
Qed.
Lemma ref_good used ts t used' : type_ref conf m used ts = (t, used') -> (forall n, In n used -> gname n) ->
  gname (ts_type ts) -> (ts_type ts = "Array" -> gname (ts_items ts)) -> ref_ok t /\ forall n, In n used' -> gname n.
Proof.
  intros H U G A. unfold type_ref in H.
  set (ts' := match find_array m (ts_type ts) with Some td => td_spec td | None => ts end) in H.
  assert (B : gname (ts_type ts') /\ (ts_type ts' = "Array" -> gname (ts_items ts'))).
  { unfold ts'. destruct (find_array m (ts_type ts)) as [td|] eqn:F; [|auto].
    apply (find_array_Some sch m Hm) in F as (I & _ & T). destruct (proj2 NP td I) as (_ & Q & _). split; [|exact Q].
    rewrite T. lit_name. }
  clearbody ts'. destruct B as [B C]. destruct (scalar_type conf used (ts_type ts')) as [x u] eqn:S. apply scalar_ok in S as [Sx Su]; [|exact U].
  destruct (x =?s "") eqn:E; cbn [negb] in H.
  2:{ injection H as <- <-. split; [|exact Su]. destruct Sx as [-> |Sx]; [discriminate|exact Sx]. }
  destruct (ts_type ts' =?s "Array") eqn:Ea.
  { apply seqb_eq in Ea. injection H as <- <-. split; [exact (C Ea)|exact Su]. }
  destruct (find_type m (ts_type ts')) as [td|]; [|injection H as <- <-; auto].
  destruct (scalar_type conf u (ts_type (td_spec td))) as [y w] eqn:S. apply scalar_ok in S as [Sy Sw]; [|exact Su].
  destruct (y =?s "") eqn:Ey; cbn [negb] in H; injection H as <- <-; [auto|]. split; [|exact Sw]. destruct Sy as [-> |Sy]; [discriminate|exact Sy].
Qed.
Lemma fields_good : forall fs used l used', struct_fields conf m used fs = (l, used') -> (forall n, In n used -> gname n) ->
  (forall f, In f fs -> (gname (fd_name f) /\ gname (ts_type (fd_spec f)) /\ (ts_type (fd_spec f) = "Array" -> gname (ts_items (fd_spec f)))) /\ no_char "010" (fd_comment f)) ->
  (forall x, In x l -> field_ok x) /\ (fs <> [] -> l <> []) /\ forall n, In n used' -> gname n.
Proof.
  induction fs as [|f fs IH]; intros used l used' H U F; cbn [struct_fields] in H.
  - injection H as <- <-. split; [intros x []|]. split; [congruence|exact U].
  - destruct (type_ref conf m used (fd_spec f)) as [t u] eqn:R. destruct (struct_fields conf m u fs) as [r w] eqn:S. injection H as <- <-.
    destruct (F f (or_introl eq_refl)) as [(A & B & C) D]. destruct (ref_good _ _ _ _ R U B C) as [Ro Ru].
    destruct (IH _ _ _ S Ru) as (X & _ & W); [intros g I; apply F; right; exact I|].
    split; [intros x [<- |I]; [split; [exact A|split; [exact D|exact Ro]]|exact (X x I)]|]. split; [discriminate|exact W].
Qed.
Lemma defs_good (WF : written_fully sch) : forall tds used ds used', (forall td, In td tds -> In td (sc_types sch)) ->
  gql_defs conf m used tds = Ok (ds, used') -> (forall n, In n used -> gname n) -> (forall d, In d ds -> def_ok d) /\ forall n, In n used' -> gname n.
Proof.
  induction tds as [|td tds IH]; intros used ds used' I H U; cbn [gql_defs] in H.
  - injection H as <- <-. split; [intros d []|exact U].
  - pose proof (I td (or_introl eq_refl)) as It. assert (I' : forall x, In x tds -> In x (sc_types sch)) by (intros x Hx; apply I; right; exact Hx).
    destruct (proj2 NP td It) as (Gn & _ & Ge & Gv & Gf). destruct (WF td It) as (Wf & We & Wv & Wr & Wc).
    destruct (ts_type (td_spec td) =?s "Enum") eqn:E1.
    { apply seqb_eq in E1. apply rbind_Ok in H as ([l u] & H & E). injection E as <- <-. destruct (IH _ _ _ I' H U) as [A B]. split; [|exact B].
      intros d [<- |J]; [|exact (A d J)]. split; [exact Gn|]. split.
      - specialize (We E1). destruct (ts_elements (td_spec td)); [congruence|discriminate].
      - intros s J. apply in_map_iff in J as (e & <- & J). split; [exact (Ge E1 e J)|exact (Wr E1 e J)]. }
    destruct (ts_type (td_spec td) =?s "Struct") eqn:E2.
    { apply seqb_eq in E2. destruct (struct_fields conf m used (ts_fields (td_spec td))) as [fs u] eqn:S.
      apply rbind_Ok in H as ([l w] & H & E). injection E as <- <-.
      destruct (fields_good _ _ _ _ S U) as (X & Y & Z); [intros f J; split; [exact (Gf E2 f J)|exact (Wc E2 f J)]|].
      destruct (IH _ _ _ I' H Z) as [A B]. split; [|exact B]. intros d [<- |J]; [|exact (A d J)]. split; [exact Gn|]. split; [exact (Y (Wf E2))|exact X]. }
    destruct (ts_type (td_spec td) =?s "Union") eqn:E3.
    { apply seqb_eq in E3. apply rbind_Ok in H as ([l u] & H & E). injection E as <- <-. destruct (IH _ _ _ I' H U) as [A B]. split; [|exact B].
      intros d [<- |J]; [|exact (A d J)]. split; [exact Gn|]. split.
      - specialize (Wv E3). destruct (ts_variants (td_spec td)); [congruence|discriminate].
      - intros s J. apply in_map_iff in J as (v & <- & J). exact (Gv E3 v J). }
    destruct (str_mem _ _) in H; [exact (IH _ _ _ I' H U)|discriminate].
Qed.
Lemma export_denoted (WF : written_fully sch) ds scalars : gql_export conf m = Ok (ds, scalars) -> denotes (gql_text ds scalars) (gql_doc ds scalars).
Proof.
  unfold gql_export. rewrite (proj1 (new_model_inv _ _ Hm)). intros H.
  destruct (defs_good WF _ _ _ _ (fun td I => I) H) as [A B]; [intros n []|]. exact (doc_denoted ds scalars A B).
Qed.
End Model.

(** ** A text denotes one document *)
Definition not_first (c : ascii) (r : list gtok) : Prop := forall r', r <> TkPunct c :: r'.
Fixpoint some_of (k : nat) (t : gtype) : gtype := match k with O => t | S k => GNonNull (some_of k t) end.
Lemma repeat_end (A : Type) (x : A) k : repeat x k ++ [x] = x :: repeat x k.
Proof. induction k as [|k IH]; [reflexivity|]. cbn. rewrite IH. reflexivity. Qed.
Lemma type_shape t l : type_tokens t l -> exists k core c, t = some_of k core /\ l = c ++ repeat (TkPunct "!") k
  /\ ((exists n, core = GNamed n /\ c = [TkName n]) \/ (exists u d, core = GList u /\ c = TkPunct "[" :: d ++ [TkPunct "]"] /\ type_tokens u d)).
Proof.
  induction 1 as [n|t l H IH|t l H (k & core & c & -> & -> & Sh)].
  - exists 0%nat, (GNamed n), [TkName n]. split; [reflexivity|]. split; [reflexivity|]. left. eauto.
  - exists 0%nat, (GList t), (TkPunct "[" :: l ++ [TkPunct "]"]). split; [reflexivity|]. split; [rewrite app_nil_r; reflexivity|]. right. eauto.
  - exists (S k), core, c. split; [reflexivity|]. split; [|exact Sh]. rewrite <- app_assoc, repeat_end. reflexivity.
Qed.
Lemma bangs_fun : forall k k' r r', not_first "!" r -> not_first "!" r' -> repeat (TkPunct "!") k ++ r = repeat (TkPunct "!") k' ++ r' -> k = k' /\ r = r'.
Proof.
  induction k as [|k IH]; intros [|k'] r r' N N' E; cbn in E.
  - auto.
  - destruct (N _ E).
  - destruct (N' _ (eq_sym E)).
  - injection E as E. destruct (IH k' r r' N N' E) as [-> ->]. auto.
Qed.
Lemma type_prefix : forall n t l t' l' r r', (length l <= n)%nat -> type_tokens t l -> type_tokens t' l' -> not_first "!" r -> not_first "!" r' ->
  l ++ r = l' ++ r' -> t = t' /\ r = r'.
Proof.
  induction n as [|n IH]; intros t l t' l' r r' Hn T T' N N' E;
    apply type_shape in T as (k & core & c & -> & -> & S); apply type_shape in T' as (k' & core' & c' & -> & -> & S').
  - destruct S as [(x & -> & ->)|(u & d & -> & -> & T)]; cbn in Hn; lia.
  - rewrite <- !app_assoc in E. destruct S as [(x & -> & ->)|(u & d & -> & -> & T)]; destruct S' as [(x' & -> & ->)|(u' & d' & -> & -> & T')]; cbn [app] in E; try discriminate.
    + injection E as -> E. apply bangs_fun in E as [-> ->]; auto.
    + injection E as E. rewrite <- !app_assoc in E. cbn [app] in E. rewrite !app_length in Hn. cbn in Hn. rewrite !app_length in Hn. cbn in Hn.
      assert (B : forall y, not_first "!" (TkPunct "]" :: y)) by (intros y x X; discriminate). assert (Hd : (length d <= n)%nat) by lia.
      destruct (IH _ _ _ _ _ _ Hd T T' (B _) (B _) E) as [-> E'].
      injection E' as E'. apply bangs_fun in E' as [-> ->]; auto.
Qed.
Lemma fields_prefix fs ls : fields_tokens fs ls -> forall fs' ls' r r', fields_tokens fs' ls' -> ls ++ TkPunct "}" :: r = ls' ++ TkPunct "}" :: r' -> fs = fs' /\ r = r'.
Proof.
  assert (Q : forall fs ls r, fields_tokens fs ls -> not_first "!" (ls ++ TkPunct "}" :: r)) by (intros fs0 ls0 r0 [] r1 X; discriminate).
  induction 1 as [|f t l fs ls T F IH]; intros fs' ls' r r' F' E; destruct F' as [|f' t' l' fs' ls' T' F']; cbn [app] in E; try discriminate.
  - injection E as ->. auto.
  - injection E as -> E. rewrite <- !app_assoc in E. apply (type_prefix _ _ _ _ _ _ _ (le_n _) T T') in E as [-> E]; [|apply (Q _ _ _ F)|apply (Q _ _ _ F')].
    destruct (IH _ _ _ _ F' E) as [-> ->]. auto.
Qed.
Lemma values_prefix vs ls : values_tokens vs ls -> forall vs' ls' r r', values_tokens vs' ls' -> ls ++ TkPunct "}" :: r = ls' ++ TkPunct "}" :: r' -> vs = vs' /\ r = r'.
Proof.
  induction 1 as [|v vs ls F IH]; intros vs' ls' r r' F' E; destruct F' as [|v' vs' ls' F']; cbn [app] in E; try discriminate.
  - injection E as ->. auto.
  - injection E as -> E. destruct (IH _ _ _ _ F' E) as [-> ->]. auto.
Qed.
Lemma members_prefix ns ls : members_tokens ns ls -> forall ns' ls' r r', members_tokens ns' ls' -> not_first "|" r -> not_first "|" r' ->
  ls ++ r = ls' ++ r' -> ns = ns' /\ r = r'.
Proof.
  induction 1 as [n|n ns ls M IH]; intros ns' ls' r r' M' N N' E; destruct M' as [n'|n' ns' ls' M']; cbn [app] in E.
  - injection E as -> ->. auto.
  - injection E as _ E. destruct (N _ E).
  - injection E as _ E. destruct (N' _ (eq_sym E)).
  - injection E as -> E. destruct (IH _ _ _ _ M' N N' E) as [-> ->]. auto.
Qed.
Lemma doc_first ds ts c : doc_tokens ds ts -> not_first c ts.
Proof. intros D r X. destruct D as [|d l ds ls D _]; [discriminate|]. destruct D; discriminate. Qed.
Lemma doc_fun ds ts : doc_tokens ds ts -> forall ds', doc_tokens ds' ts -> ds = ds'.
Proof.
  assert (Q : forall d l, defn_tokens d l -> l <> []) by (intros d0 l0 []; discriminate).
  induction 1 as [|d l ds ls D R IH]; intros ds' H.
  - inversion H as [|d' l' ds2 ls' D' _ E1 E2]; [reflexivity|]. apply Q in D'. destruct l'; [congruence|discriminate].
  - remember (l ++ ls) as ts eqn:E. destruct H as [|d' l' ds' ls' D' R'].
    + apply Q in D. destruct l; [congruence|discriminate].
    + destruct D as [n fs x Nf F|n vs x Nv Rv F|n ns x F|n]; destruct D' as [n' fs' x' Nf' F'|n' vs' x' Nv' Rv' F'|n' ns' x' F'|n']; cbn [app] in E; try discriminate.
      * injection E as -> E. rewrite <- !app_assoc in E. destruct (fields_prefix _ _ F' _ _ _ _ F E) as [-> ->]. rewrite (IH _ R'). reflexivity.
      * injection E as -> E. rewrite <- !app_assoc in E. destruct (values_prefix _ _ F' _ _ _ _ F E) as [-> ->]. rewrite (IH _ R'). reflexivity.
      * injection E as -> E. destruct (members_prefix _ _ F' _ _ _ _ F (doc_first _ _ _ R') (doc_first _ _ _ R) E) as [-> ->]. rewrite (IH _ R'). reflexivity.
      * injection E as -> ->. rewrite (IH _ R'). reflexivity.
Qed.
Lemma denotes_fun s doc doc' : denotes s doc -> denotes s doc' -> doc = doc'.
Proof. intros (ts & L & D) (ts' & L' & D'). rewrite (lexes_fun _ _ _ L' L) in D'. exact (doc_fun _ _ D _ D'). Qed.
