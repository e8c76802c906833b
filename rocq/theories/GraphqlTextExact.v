(** When the text of the GraphQL export is a document at all. *)
From Verif Require Import GoStr Outcome Value Schema Model Generator Graphql GraphqlImport
  SpecModel SpecMisc SpecPV SpecGen SpecGraphqlText ModelFacts PVFacts GraphqlFacts GraphqlTextFacts.
From Coq Require Import Lia.

(** the grammar with empty bodies *)
Inductive loose_tokens : gdefn -> list gtok -> Prop :=
| lt_object n fs ls : fields_tokens fs ls -> loose_tokens (GObject n None fs) (TkName "type" :: TkName n :: TkPunct "{" :: ls ++ [TkPunct "}"])
| lt_enum n vs ls : values_tokens vs ls -> loose_tokens (GEnum n None vs) (TkName "enum" :: TkName n :: TkPunct "{" :: ls ++ [TkPunct "}"])
| lt_union n ns ls : members_tokens ns ls -> loose_tokens (GUnion n None ns) (TkName "union" :: TkName n :: TkPunct "=" :: ls)
| lt_scalar n : loose_tokens (GScalar n) [TkName "scalar"; TkName n].
Inductive loose_doc : list gdefn -> list gtok -> Prop :=
| ld_nil : loose_doc [] []
| ld_cons d l ds ls : loose_tokens d l -> loose_doc ds ls -> loose_doc (d :: ds) (l ++ ls).
Lemma loose_first ds ts c : loose_doc ds ts -> not_first c ts.
Proof. intros D r X. destruct D as [|d l ds ls D _]; [discriminate|]. destruct D; discriminate. Qed.
Lemma loose_fun ds ts : loose_doc ds ts -> forall ds', loose_doc ds' ts -> ds = ds'.
Proof.
  assert (Q : forall d l, loose_tokens d l -> l <> []) by (intros d0 l0 []; discriminate).
  induction 1 as [|d l ds ls D R IH]; intros ds' H.
  - inversion H as [|d' l' ds2 ls' D' _ E1 E2]; [reflexivity|]. apply Q in D'. destruct l'; [congruence|discriminate].
  - remember (l ++ ls) as ts eqn:E. destruct H as [|d' l' ds' ls' D' R'].
    + apply Q in D. destruct l; [congruence|discriminate].
    + destruct D as [n fs x F|n vs x F|n ns x F|n]; destruct D' as [n' fs' x' F'|n' vs' x' F'|n' ns' x' F'|n']; cbn [app] in E; try discriminate.
      * injection E as -> E. rewrite <- !app_assoc in E. destruct (fields_prefix _ _ F' _ _ _ _ F E) as [-> ->]. rewrite (IH _ R'). reflexivity.
      * injection E as -> E. rewrite <- !app_assoc in E. destruct (values_prefix _ _ F' _ _ _ _ F E) as [-> ->]. rewrite (IH _ R'). reflexivity.
      * injection E as -> E. destruct (members_prefix _ _ F' _ _ _ _ F (loose_first _ _ _ R') (loose_first _ _ _ R) E) as [-> ->]. rewrite (IH _ R'). reflexivity.
      * injection E as -> ->. rewrite (IH _ R'). reflexivity.
Qed.
Lemma doc_loose ds ts : doc_tokens ds ts -> loose_doc ds ts.
Proof. induction 1 as [|d l ds ls D R IH]; [constructor|]. constructor; [|exact IH]. destruct D; constructor; assumption. Qed.

Definition def_plain (d : gdef) : Prop :=
  match d with
  | DEnum n l => gname n /\ forall s, In s l -> gname s
  | DType n l => gname n /\ forall x, In x l -> field_ok x
  | DUnion n l => gname n /\ l <> [] /\ forall s, In s l -> gname s
  end.
Definition def_full (d : gdef) : Prop :=
  match d with
  | DEnum n l => l <> [] /\ forall s, In s l -> ~ In s ["true"; "false"; "null"]
  | DType n l => l <> []
  | DUnion n l => True
  end.
Lemma full_ok d : def_plain d -> def_full d -> def_ok d.
Proof.
  destruct d as [n l|n l|n l]; cbn [def_plain def_full def_ok].
  - intros [G P] [N R]. split; [exact G|]. split; [exact N|]. intros s I. split; [exact (P s I)|exact (R s I)].
  - intros [G P] N. auto.
  - intros P _. exact P.
Qed.
Lemma lex_loose d s ts : def_plain d -> lexes s ts -> exists l, loose_tokens (defn_of d) l /\ lexes (gql_def_text d +++ s) (l ++ ts).
Proof.
  intros D L. destruct d as [n l|n l|n l].
  - destruct D as (G & F). exists (TkName "enum" :: TkName n :: TkPunct "{" :: flat_map (fun s => [TkName s]) l ++ [TkPunct "}"]). split; [apply lt_enum, values_toks|].
    cbn [gql_def_text app]. unfold nl. rewrite !append_assoc. apply (lex_name "enum" " "); [lit_name|cbn; tauto|]. skip.
    cbn [append]. name. skip. punct. skip. rewrite <- app_assoc. apply lex_each.
    + intros x u us I Lu. flat. skip. skip. apply lex_name; [apply (F x I)|cbn; tauto|]. skip. exact Lu.
    + cbn [app append]. punct. skip. skip. exact L.
  - destruct D as (G & F). exists (TkName "type" :: TkName n :: TkPunct "{" :: flat_map field_toks l ++ [TkPunct "}"]). split; [apply lt_object, fields_toks|].
    cbn [gql_def_text app]. unfold nl at 1 4 5. rewrite !append_assoc. apply (lex_name "type" " "); [lit_name|cbn; tauto|]. skip.
    cbn [append]. name. skip. punct. skip. rewrite <- app_assoc. apply lex_each.
    + intros [[[f c] t] r] u us I Lu. destruct (F _ I) as (A & B & C). apply lex_field; assumption.
    + cbn [app append]. punct. skip. skip. exact L.
  - destruct (lex_def (DUnion n l) s ts D L) as (x & T & X). exists x. split; [|exact X]. destruct D as (_ & Ne & _).
    inversion T; subst. constructor. assumption.
Qed.
Lemma full_iff d l : defn_tokens (defn_of d) l -> def_full d.
Proof.
  destruct d as [n x|n x|n x]; cbn [defn_of def_full]; intros H; inversion H as [n' fs ls N F|n' vs ls N R F|n' ns ls F|n']; subst.
  - split; [destruct x; [destruct (N eq_refl)|discriminate]|]. intros s I. apply (R s None). apply in_map_iff. exists s. auto.
  - destruct x; [destruct (N eq_refl)|discriminate].
  - exact Logic.I.
Qed.
Lemma doc_exact ds scalars : (forall d, In d ds -> def_plain d) -> (forall n, In n scalars -> gname n) ->
  ((exists doc, denotes (gql_text ds scalars) doc) <-> forall d, In d ds -> def_full d).
Proof.
  intros H S. split.
  - intros (doc & ts & L & D).
    assert (B : exists us, loose_doc (gql_doc ds scalars) us /\ lexes (gql_text ds scalars) us).
    { clear L D. destruct (lex_scalars scalars S) as (us & D & L). apply doc_loose in D. unfold gql_text, gql_doc.
      induction ds as [|d ds IH]; [exists us; auto|]. destruct IH as (vs & D' & L'); [intros x I; apply H; right; exact I|].
      destruct (lex_loose d _ _ (H d (or_introl eq_refl)) L') as (l & A & B). exists (l ++ vs). split.
      - cbn [map app]. constructor; assumption.
      - cbn [map]. rewrite concat_cons, append_assoc. exact B. }
    destruct B as (us & D' & L'). rewrite (lexes_fun _ _ _ L' L) in D'. rewrite <- (loose_fun _ _ D' _ (doc_loose _ _ D)) in D.
    clear - D. unfold gql_doc in D. revert ts D. induction ds as [|d ds IH]; intros ts D x I; [destruct I|]. cbn [map app] in D.
    inversion D as [|d' l ds' ls D1 D2]; subst. destruct I as [<- |I]; [exact (full_iff _ _ D1)|exact (IH _ D2 x I)].
  - intros F. exists (gql_doc ds scalars). apply doc_denoted; [|exact S]. intros d I. apply full_ok; auto.
Qed.

Section Model.
Context (conf : string -> string) (sch : schema) (m : model) (Hm : new_model sch = Ok m) (NP : named_plainly conf sch) (LP : lines_plain sch).
Definition full_type (td : typedef) : Prop :=
  (ts_type (td_spec td) = "Struct" -> ts_fields (td_spec td) <> [])
  /\ (ts_type (td_spec td) = "Enum" -> ts_elements (td_spec td) <> [] /\ forall e, In e (ts_elements (td_spec td)) -> ~ In (ee_symbol e) ["true"; "false"; "null"]).
Lemma fields_length : forall fs used l used', struct_fields conf m used fs = (l, used') -> (l <> [] <-> fs <> []).
Proof.
  intros [|f fs] used l used' H; cbn [struct_fields] in H; [injection H as <- _; tauto|].
  destruct (type_ref conf m used (fd_spec f)) as [t u]. destruct (struct_fields conf m u fs) as [r w]. injection H as <- _. split; discriminate.
Qed.
Lemma cons_iff (A B : Type) (P : A -> Prop) (R : B -> Prop) a b l k : (P a <-> R b) -> ((forall x, In x l -> P x) <-> (forall x, In x k -> R x)) ->
  ((forall x, In x (a :: l) -> P x) <-> (forall x, In x (b :: k) -> R x)).
Proof.
  intros E F. split; intros H x [<- |I].
  - apply E, H. left. reflexivity.
  - apply (proj1 F); [|exact I]. intros y J. apply H. right. exact J.
  - apply E, H. left. reflexivity.
  - apply (proj2 F); [|exact I]. intros y J. apply H. right. exact J.
Qed.
Lemma defs_exact : forall tds used ds used', (forall td, In td tds -> In td (sc_types sch)) ->
  gql_defs conf m used tds = Ok (ds, used') -> (forall n, In n used -> gname n) ->
  (forall d, In d ds -> def_plain d) /\ (forall n, In n used' -> gname n) /\ ((forall d, In d ds -> def_full d) <-> forall td, In td tds -> full_type td).
Proof.
  induction tds as [|td tds IH]; intros used ds used' I H U; cbn [gql_defs] in H.
  - injection H as <- <-. split; [intros d []|]. split; [exact U|]. split; intros _ x [].
  - pose proof (I td (or_introl eq_refl)) as It. assert (I' : forall x, In x tds -> In x (sc_types sch)) by (intros x Hx; apply I; right; exact Hx).
    destruct (proj2 NP td It) as (Gn & _ & Ge & Gv & Gf). destruct (LP td It) as (Lv & Lc). unfold full_type in IH |- *.
    destruct (ts_type (td_spec td) =?s "Enum") eqn:E1.
    { apply seqb_eq in E1. apply rbind_Ok in H as ([l u] & H & E). injection E as <- <-. destruct (IH _ _ _ I' H U) as (A & B & C). split; [|split; [exact B|]].
      - intros d [<- |J]; [|exact (A d J)]. split; [exact Gn|]. intros s J. apply in_map_iff in J as (e & <- & J). exact (Ge E1 e J).
      - apply cons_iff; [|exact C]. cbn [def_full]. rewrite E1. split.
        + intros [N R]. split; [discriminate|]. intros _. split; [destruct (ts_elements (td_spec td)); [destruct (N eq_refl)|discriminate]|].
          intros e J. apply R. apply in_map. exact J.
        + intros [_ F]. destruct (F eq_refl) as [N R]. split; [destruct (ts_elements (td_spec td)); [congruence|discriminate]|].
          intros s J. apply in_map_iff in J as (e & <- & J). exact (R e J). }
    destruct (ts_type (td_spec td) =?s "Struct") eqn:E2.
    { apply seqb_eq in E2. destruct (struct_fields conf m used (ts_fields (td_spec td))) as [fs u] eqn:S.
      apply rbind_Ok in H as ([l w] & H & E). injection E as <- <-.
      destruct (fields_good conf sch m Hm NP _ _ _ _ S U) as (X & _ & Z); [intros f J; split; [exact (Gf E2 f J)|exact (Lc E2 f J)]|].
      destruct (IH _ _ _ I' H Z) as (A & B & C). split; [|split; [exact B|]].
      - intros d [<- |J]; [|exact (A d J)]. split; [exact Gn|exact X].
      - apply cons_iff; [|exact C]. cbn [def_full]. rewrite (fields_length _ _ _ _ S), E2. split; [intros N; split; [intros _; exact N|discriminate]|intros [F _]; exact (F eq_refl)]. }
    destruct (ts_type (td_spec td) =?s "Union") eqn:E3.
    { apply seqb_eq in E3. apply rbind_Ok in H as ([l u] & H & E). injection E as <- <-. destruct (IH _ _ _ I' H U) as (A & B & C). split; [|split; [exact B|]].
      - intros d [<- |J]; [|exact (A d J)]. split; [exact Gn|]. split.
        + specialize (Lv E3). destruct (ts_variants (td_spec td)); [congruence|discriminate].
        + intros s J. apply in_map_iff in J as (v & <- & J). exact (Gv E3 v J).
      - apply cons_iff; [|exact C]. cbn [def_full]. rewrite E3. split; [intros _; split; discriminate|intros _; exact Logic.I]. }
    destruct (str_mem _ _) in H; [|discriminate]. destruct (IH _ _ _ I' H U) as (A & B & C). split; [exact A|]. split; [exact B|].
    apply seqb_neq in E1, E2. rewrite C. split; [|intros F x J; apply F; right; exact J].
    intros F x [<- |J]; [|exact (F x J)]. split; intros X; [destruct (E2 X)|destruct (E1 X)].
Qed.
Lemma export_exact ds scalars : gql_export conf m = Ok (ds, scalars) -> ((exists doc, denotes (gql_text ds scalars) doc) <-> bodies_full sch).
Proof.
  unfold gql_export. rewrite (proj1 (new_model_inv _ _ Hm)). intros H.
  destruct (defs_exact _ _ _ _ (fun td I => I) H) as (A & B & C); [intros n []|]. rewrite (doc_exact ds scalars A B). exact C.
Qed.
End Model.
