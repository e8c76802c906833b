(** C123: what the OpenAPI export writes is taken by the OpenAPI import; more on C54. *)
From Verif Require Import GoStr Outcome Value Schema Scalars Model SpecModel ModelFacts Misc OpenApi OpenApiImport OasValidate SpecOasValidate SpecOpenApi OpenApiFacts
  SpecPV SpecImport Demo Lex PropsExport PropsImport ParserValidate Scan Parser PropsParser PropsTrace SpecOpenBack OpenBack.

Lemma seq_no s : negb (s =?s "") = true <-> s <> "".
Proof. rewrite negb_true_iff. split; [intros H ->; discriminate|]. intros H. destruct s; [contradiction|reflexivity]. Qed.
Lemma rooted_iff s : has_prefix "/" s = true <-> rooted s.
Proof. rewrite has_prefix_spec. split; intros [r H]; exists r; exact H. Qed.
(** ** C123 *)
(** Validate takes a document exactly if the required parts are there and all paths begin with a slash. *)
Theorem C123_validate_exact : forall d, validate_oas d = true <-> takeable d.
Proof.
  intros [[i|] ps]; unfold validate_oas, takeable; cbn [of_info of_paths]; [|split; [discriminate|intros (? & ? & H & _); discriminate]].
  rewrite !andb_true_iff, seq_no. unfold validate_info. rewrite !andb_true_iff, !seq_no.
  assert (L : match oi_license i with Some (n, _) => negb (n =?s "") | None => true end = true <-> (forall n u, oi_license i = Some (n, u) -> n <> "")).
  { destruct (oi_license i) as [[n u]|].
    - rewrite seq_no. split; [intros H n' u' E; congruence|intros H; exact (H n u eq_refl)].
    - split; [discriminate|reflexivity]. }
  rewrite L. destruct ps as [ps|].
  - assert (P : validate_paths ps = true <-> (forall p x, In (p, x) ps -> rooted p)).
    { unfold validate_paths. rewrite forallb_forall. split; [intros H p x I; apply rooted_iff; exact (H (p, x) I)|intros H [p x] I; apply rooted_iff; exact (H p x I)]. }
    rewrite P. split.
    + intros ((A & (B & C) & D) & E). exists i, ps. repeat (split; [first [reflexivity|assumption]|]). exact E.
    + intros (i' & ps' & E1 & E2 & A & B & C & D & E). injection E1 as <-. injection E2 as <-. repeat split; assumption.
  - split; [intros (_ & H); discriminate|]. intros (? & ? & _ & H & _). discriminate.
Qed.
Print Assumptions C123_validate_exact.
Lemma rooted_part s p : path_part s p -> (rooted p <-> rooted s).
Proof.
  intros [_ [->|(q & ->)]]; [reflexivity|]. destruct p as [|c r]; [split; intros [x E]; discriminate|].
  split; intros [x E]; injection E as -> _; [exists (r +++ "?" +++ q)|exists r]; reflexivity.
Qed.
(** The document of a model is taken again exactly if the model has a name, a licence with a name if it has one at all, and only
    actions whose path, with the base in front, begins with a slash. *)
Theorem C123_accepted_exact : forall f64 sch m fuel doc, new_model sch = Ok m -> NoDup (map fst (sc_annos sch)) -> export_oas f64 m fuel = Ok doc ->
  (validate_oas (written_again sch doc) = true <-> writes_takeable sch).
Proof.
  intros f64 sch m fuel doc Hm N H. rewrite C123_validate_exact. destruct (export_ops f64 sch m Hm fuel doc H) as (_ & _ & K & _).
  assert (AN : forall k, anno k (sc_annos sch) <> "" <-> annotated sch k).
  { intros k. unfold anno, annotated. destruct (get k (sc_annos sch)) as [v|] eqn:G.
    - apply (get_In k v _ N) in G as I. split; [intros V; exists v; auto|]. intros (w & J & W). apply (get_In k w _ N) in J. congruence.
    - split; [intros V; contradiction|]. intros (w & J & W). apply (get_In k w _ N) in J. congruence. }
  assert (LI : (forall n u, oi_license (export_info sch) = Some (n, u) -> n <> "") <-> (annotated sch "x_license_url" -> annotated sch "x_license_name")).
  { unfold export_info. cbn [oi_license]. rewrite <- !AN.
    destruct (anno "x_license_url" (sc_annos sch)) as [|c r]; destruct (anno "x_license_name" (sc_annos sch)) as [|c' r']; cbn; split.
    all: try (intros _ X; exact X). all: try (intros _ n u E; cbn in E; congruence). all: try (intros _ _; discriminate).
    all: intros Q; try (intros n u E; cbn in E; injection E as <- <-; apply Q; discriminate); try (intros _; exact (Q _ _ eq_refl)). }
  assert (PA : (forall p x, In (p, x) (od_paths doc) -> rooted p) <-> (forall h, In h (sc_http sch) -> rooted (sc_base sch +++ h_path h))).
  { split.
    - intros Q h I. pose proof (cut_query_part (sc_base sch +++ h_path h)) as PP. apply (rooted_part _ _ PP).
      assert (J : In (cut_query (sc_base sch +++ h_path h)) (map fst (od_paths doc))) by (apply K; exists h; auto).
      apply in_map_iff in J as ([p x] & <- & J). exact (Q p x J).
    - intros Q p x I. destruct (proj1 (K p)) as (h & J & PP); [apply in_map_iff; exists (p, x); auto|]. apply (rooted_part _ _ PP). exact (Q h J). }
  unfold takeable, written_again, writes_takeable. cbn [of_info of_paths]. rewrite <- LI, <- PA. split.
  - intros (i & ps & E1 & E2 & _ & B & C & D & E). injection E1 as <-. injection E2 as <-. repeat split; assumption.
  - intros (A & B & C). exists (export_info sch), (od_paths doc). split; [reflexivity|]. split; [reflexivity|]. split; [discriminate|]. split; [exact A|].
    split; [|split; assumption]. cbn. destruct (sc_version sch); discriminate.
Qed.
Print Assumptions C123_accepted_exact.
Example C123_accepted_case : NoDup (map fst (sc_annos head_demo)) /\ writes_takeable head_demo
  /\ exists doc, new_model head_demo = Ok (model_of head_demo) /\ export_oas same (model_of head_demo) 3 = Ok doc.
Proof.
  split; [repeat constructor; simpl; intuition discriminate|]. split.
  - split; [discriminate|]. split; [intros _; exists "MIT"; split; [left; reflexivity|discriminate]|]. intros h [].
  - eexists. split; [reflexivity|]. vm_compute. reflexivity.
Qed.
(** Texts the parser takes whose document is refused: without a name, and with a path without a slash. *)
Definition refused_texts : list (list string) :=
  [ ["type Item Struct {"; "  label String"; "}"];
    ["name store"; "http GET ""items"" (operation=getItems) {"; "  expect 200 {"; "    label String"; "  }"; "}"] ].
Theorem C123_accepted_refuted : forall l, In l refused_texts ->
  parse_sadl_string demo_ext no_files 0 9 (src l) = Ok (parse_of l)
  /\ exists doc, export_oas same (parse_of l) 9 = Ok doc /\ validate_oas (written_again (m_schema (parse_of l)) doc) = false.
Proof.
  intros l I. cbn in I. repeat (destruct I as [<- |I]; [split; [vm_compute; reflexivity|]; eexists; split; vm_compute; reflexivity|]). destruct I.
Qed.
Print Assumptions C123_accepted_refuted.
(** A model with the address of a licence but no name for it. *)
Definition licence_demo : schema := mkSchema "" "pets" "" "" "" [] [] [] [] "" [("x_license_url", "https://licence.example")].
Theorem C123_licence_refuted : exists doc, new_model licence_demo = Ok (model_of licence_demo) /\ export_oas same (model_of licence_demo) 3 = Ok doc
  /\ validate_oas (written_again licence_demo doc) = false.
Proof. eexists. split; [reflexivity|]. split; vm_compute; reflexivity. Qed.
Print Assumptions C123_licence_refuted.

(** ** C54, constraints and comments *)
(** The comment of the struct is written; a field of a base type that survives comes back with its pattern, its sizes but for a least
    size of 0, and its bounds as floats, without its listed values and its comment.  Missing: the values and the comments, which are
    lost (next theorem). *)
Theorem C54_constraints_partial : forall f64 sch m fuel doc td, new_model sch = Ok m -> export_oas f64 m fuel = Ok doc ->
  In td (sc_types sch) -> ts_type (td_spec td) = "Struct" -> NoDup (map fd_name (ts_fields (td_spec td))) ->
  (forall f, In f (ts_fields (td_spec td)) -> survives sch (fd_spec f)) ->
  exists s ts, In (td_name td, s) (od_schemas doc) /\ o_desc s = td_comment td /\ convert_oas s = Ok ts /\ ts_type ts = "Struct"
    /\ Forall2 (field_back_as f64) (ts_fields (td_spec td)) (ts_fields ts).
Proof. intros f64 sch m fuel doc td Hm. exact (struct_back_all f64 sch m Hm fuel doc td). Qed.
Print Assumptions C54_constraints_partial.
Definition tight : typespec := mkTS "String" "[a-z]+" None (Some 2%Z) (Some 9%Z) [] [] None None "" "" [] "" "" "".
Definition chosen : typespec := mkTS "String" "" (Some ["a"; "b"]) (Some 0%Z) None [] [] None None "" "" [] "" "" "".
Definition tight_def : typedef := mkTD "S" "all" [] (ts_struct [fld "t" true tight; mkField "c" "a choice" [] false VNil chosen; fld "n" false (ts_of "Decimal")]).
Definition tight_schema : schema := schema_of [tight_def] [].
Example C54_constraints_case : new_model tight_schema = Ok (model_of tight_schema) /\ In tight_def (sc_types tight_schema)
  /\ NoDup (map fd_name (ts_fields (td_spec tight_def))) /\ (forall f, In f (ts_fields (td_spec tight_def)) -> survives tight_schema (fd_spec f))
  /\ exists doc, export_oas same (model_of tight_schema) 5 = Ok doc.
Proof.
  split; [reflexivity|]. split; [left; reflexivity|]. split; [repeat constructor; simpl; intuition discriminate|]. split; [|eexists; vm_compute; reflexivity].
  intros f [<-|[<-|[<-|[]]]]; left; simpl; tauto.
Qed.
(** Values, a least size of 0 and comments do not come back; a Decimal gets a comment it did not have. *)
Theorem C54_constraints_refuted : exists doc s ts, new_model tight_schema = Ok (model_of tight_schema) /\ export_oas same (model_of tight_schema) 5 = Ok doc
  /\ In ("S", s) (od_schemas doc) /\ convert_oas s = Ok ts
  /\ map (fun f => (fd_comment f, ts_values (fd_spec f), ts_minsize (fd_spec f))) (ts_fields (td_spec tight_def))
     = [("", None, Some 2%Z); ("a choice", Some ["a"; "b"], Some 0%Z); ("", None, None)]
  /\ map (fun f => (fd_comment f, ts_values (fd_spec f), ts_minsize (fd_spec f))) (ts_fields ts)
     = [("", None, Some 2%Z); ("", None, None); ("Decimal", None, None)].
Proof.
  eexists _, _, _. split; [reflexivity|]. split; [vm_compute; reflexivity|]. split; [left; reflexivity|]. split; [vm_compute; reflexivity|]. split; reflexivity.
Qed.
Print Assumptions C54_constraints_refuted.
