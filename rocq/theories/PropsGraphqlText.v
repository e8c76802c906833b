(** C127: the GraphQL document as a text. *)
From Verif Require Import GoStr Outcome Value Schema Model Graphql GraphqlImport SpecModel SpecMisc SpecPV SpecGen SpecGraphql SpecGraphqlText
  ModelFacts PVFacts Demo GraphqlFacts PropsExport PropsGraphql GraphqlTextFacts GraphqlTextExact.
From Coq Require Import Lia.

(** A text denotes at most one document. *)
Theorem C127_unique : forall s doc doc', denotes s doc -> denotes s doc' -> doc = doc'.
Proof. exact denotes_fun. Qed.
Print Assumptions C127_unique.
(** What is written denotes the definitions made from the model. *)
Theorem C127_denotes_partial : forall conf sch m ds scalars, new_model sch = Ok m -> named_plainly conf sch -> written_fully sch ->
  gql_export conf m = Ok (ds, scalars) -> denotes (gql_text ds scalars) (gql_doc ds scalars).
Proof. intros conf sch m ds scalars Hm NP WF. exact (export_denoted conf sch m Hm NP WF ds scalars). Qed.
Print Assumptions C127_denotes_partial.
(** With a parser that reads this text as what it denotes, a model that is written and read again has the types of C76. *)
Theorem C127_round_partial : forall conf sch m read parse name ns path ds scalars, new_model sch = Ok m -> named_plainly conf sch -> written_fully sch ->
  gql_scalars_ok conf -> ~ In "ID" (map td_name (sc_types sch)) -> gql_export conf m = Ok (ds, scalars) ->
  read path = Some (gql_text ds scalars) -> (forall doc, denotes (gql_text ds scalars) doc -> parse (gql_text ds scalars) = Some doc) ->
  exists m' i l l', gql_import read parse name ns [path] = Ok m' /\ gql_defined (sc_types sch) l /\ sc_types (m_schema m') = i :: l' /\ td_name i = "ID"
  /\ Forall2 (gql_back conf sch) l l'.
Proof.
  intros conf sch m read parse name ns path ds scalars Hm NP WF SO NI EX R P.
  apply (C76_types_partial conf sch m read parse name ns path ds scalars Hm SO NI EX R). apply P. exact (C127_denotes_partial conf sch m ds scalars Hm NP WF EX).
Qed.
Print Assumptions C127_round_partial.

Lemma lit_gname s : match s with "" => false | String c r => let n := nat_of_ascii c in
    (((65 <=? n) && (n <=? 90)) || ((97 <=? n) && (n <=? 122)) || Ascii.eqb c "_")%nat%bool
    && forallb (fun c => let n := nat_of_ascii c in ((65 <=? n) && (n <=? 90)) || ((97 <=? n) && (n <=? 122)) || ((48 <=? n) && (n <=? 57)) || (Ascii.eqb c "_"))%nat%bool (list_ascii_of_string r) end = true -> gname s.
Proof.
  destruct s as [|c r]; [discriminate|]. intros H. apply andb_true_iff in H as [H T]. apply gname_lit; [|exact (all_chars_dec r T)].
  unfold gname_start. apply orb_true_iff in H as [H|H]; [apply orb_true_iff in H as [H|H]|].
  - apply andb_true_iff in H as [A B]. apply Nat.leb_le in A, B. lia.
  - apply andb_true_iff in H as [A B]. apply Nat.leb_le in A, B. lia.
  - apply Ascii.eqb_eq in H. auto.
Qed.
Ltac each I := cbn in I; repeat (destruct I as [<- |I]); try contradiction.
Example C127_denotes_case : new_model gql_shapes = Ok (model_of gql_shapes) /\ named_plainly gql_conf gql_shapes /\ written_fully gql_shapes
  /\ gql_export gql_conf (model_of gql_shapes) = Ok gql_out /\ denotes (gql_text (fst gql_out) (snd gql_out)) (gql_doc (fst gql_out) (snd gql_out)).
Proof.
  assert (NP : named_plainly gql_conf gql_shapes).
  { split; [intros n; unfold gql_conf; destruct (n =?s "Timestamp"); [right; apply lit_gname; reflexivity|left; reflexivity]|].
    intros td I. each I; (split; [apply lit_gname; reflexivity|]); (split; [|split; [|split]]); intros E; try discriminate E; try (apply lit_gname; reflexivity);
      intros x J; each J; repeat split; try (apply lit_gname; reflexivity); try (intros X; try discriminate X; apply lit_gname; reflexivity). }
  assert (WF : written_fully gql_shapes).
  { intros td I. each I; (split; [|split; [|split; [|split]]]); intros E; try discriminate E; try discriminate; intros x J; each J;
      try (apply no_char_smem; reflexivity); cbn; intuition discriminate. }
  split; [reflexivity|]. split; [exact NP|]. split; [exact WF|]. split; [reflexivity|].
  apply (C127_denotes_partial gql_conf gql_shapes (model_of gql_shapes)); [reflexivity|exact NP|exact WF|reflexivity].
Qed.

(** Of a comment with several lines only the first is a comment: the others are read as definitions of fields. *)
Theorem C127_comment_refuted : exists sch m ds, new_model sch = Ok m /\ named_plainly (fun _ => "") sch /\ gql_export (fun _ => "") m = Ok (ds, [])
  /\ map (fun td => map fd_name (ts_fields (td_spec td))) (sc_types sch) = [["x"]]
  /\ denotes (gql_text ds []) [GObject "P" None [mkGField "extra" None (GNamed "Int"); mkGField "x" None (GNonNull (GNamed "Int"))]].
Proof.
  set (sch := schema_of [tdef "P" (ts_struct [mkField "x" ("how far" +++ newline +++ "extra: Int") [] true VNil (ts_of "Int32")])] []).
  exists sch, (model_of sch). eexists. split; [reflexivity|]. split.
  { split; [intros n; left; reflexivity|]. intros td I. each I. split; [apply lit_gname; reflexivity|].
    (split; [|split; [|split]]); intros E; try discriminate E; intros x J; each J; repeat split; try (apply lit_gname; reflexivity); intros X; discriminate X. }
  split; [vm_compute; reflexivity|]. split; [reflexivity|].
  exists ([TkName "type"; TkName "P"; TkPunct "{"; TkName "extra"; TkPunct ":"; TkName "Int"; TkName "x"; TkPunct ":"; TkName "Int"; TkPunct "!"; TkPunct "}"] ++ []). split.
  - vm_compute.
    repeat first [ apply lx_end | apply lx_skip; [cbn; tauto|] | apply lx_punct; [cbn; tauto|]
      | apply (lx_comment " how far"); [apply no_char_smem; reflexivity|intros c r X; injection X as <- _; reflexivity|]
      | match goal with |- lexes _ (TkName ?n :: _) => apply (lx_name n); [apply lit_gname; reflexivity|apply ends_at; cbn; tauto|] end ].
  - apply (dc_cons _ _ [] []); [|constructor].
    apply (dt_object "P" _ [TkName "extra"; TkPunct ":"; TkName "Int"; TkName "x"; TkPunct ":"; TkName "Int"; TkPunct "!"]); [discriminate|].
    apply (ft_field "extra" _ [TkName "Int"] _ [TkName "x"; TkPunct ":"; TkName "Int"; TkPunct "!"]); [constructor|].
    apply (ft_field "x" _ ([TkName "Int"] ++ [TkPunct "!"]) [] []); [apply tt_some; constructor|constructor].
Qed.
Print Assumptions C127_comment_refuted.
(** A structure without fields makes the whole text no document. *)
Theorem C127_empty_refuted : exists sch m ds, new_model sch = Ok m /\ named_plainly (fun _ => "") sch /\ gql_export (fun _ => "") m = Ok (ds, [])
  /\ ds <> [] /\ forall doc, ~ denotes (gql_text ds []) doc.
Proof.
  set (sch := schema_of [tdef "P" (ts_struct [])] []). exists sch, (model_of sch). eexists. split; [reflexivity|]. split.
  { split; [intros n; left; reflexivity|]. intros td I. each I. split; [apply lit_gname; reflexivity|].
    (split; [|split; [|split]]); intros E; try discriminate E; intros x J; each J. }
  split; [vm_compute; reflexivity|]. split; [discriminate|].
  intros doc (ts & L & D). assert (E : ts = [TkName "type"; TkName "P"; TkPunct "{"; TkPunct "}"]).
  { apply (lexes_fun _ _ _ L). vm_compute.
    repeat first [ apply lx_end | apply lx_skip; [cbn; tauto|] | apply lx_punct; [cbn; tauto|]
      | match goal with |- lexes _ (TkName ?n :: _) => apply (lx_name n); [apply lit_gname; reflexivity|apply ends_at; cbn; tauto|] end ]. }
  subst ts. clear L. inversion D as [|d l ds' ls D1 D2 E1 E2]. destruct D1 as [n fs x N F|n vs x N R F|n ns x F|n]; cbn [app] in E2; try discriminate.
  injection E2 as _ E2. destruct F as [|f t l' fs ls' T F]; [congruence|discriminate].
Qed.
Print Assumptions C127_empty_refuted.
Example C127_round_case : gql_scalars_ok gql_conf /\ ~ In "ID" (map td_name (sc_types gql_shapes))
  /\ exists parse, forall doc, denotes (gql_text (fst gql_out) (snd gql_out)) doc -> parse (gql_text (fst gql_out) (snd gql_out)) = Some doc.
Proof.
  destruct C76_types_partial_case as (_ & S & I & _). split; [exact S|]. split; [exact I|].
  exists (fun _ => Some (gql_doc (fst gql_out) (snd gql_out))). intros doc D. f_equal.
  exact (C127_unique _ _ _ (proj2 (proj2 (proj2 (proj2 C127_denotes_case)))) D).
Qed.
(** With comments on one line and unions that are not empty: the text is a document exactly if the other bodies are not empty
    and no symbol is a word with another meaning. *)
Theorem C127_document_exact : forall conf sch m ds scalars, new_model sch = Ok m -> named_plainly conf sch -> lines_plain sch ->
  gql_export conf m = Ok (ds, scalars) -> ((exists doc, denotes (gql_text ds scalars) doc) <-> bodies_full sch).
Proof. intros conf sch m ds scalars Hm NP LP. exact (export_exact conf sch m Hm NP LP ds scalars). Qed.
Print Assumptions C127_document_exact.
Example C127_document_case : named_plainly gql_conf gql_shapes /\ lines_plain gql_shapes /\ bodies_full gql_shapes.
Proof.
  destruct C127_denotes_case as (_ & NP & WF & _). split; [exact NP|]. split; intros td I; destruct (WF td I) as (A & B & C & D & E).
  - split; [exact C|exact E].
  - split; [exact A|]. intros X. split; [exact (B X)|exact (D X)].
Qed.
