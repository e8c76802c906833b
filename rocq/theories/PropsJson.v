(** C78-C81: a model written as JSON and loaded again. *)
From Verif Require Import GoStr Outcome Value Schema Scalars Time Model SpecModel ModelFacts OpenApi OpenApiImport GraphqlImport JsonAst SpecJson JsonFacts JsonData JsonCrash Demo PropsExport.

Definition keep (d : decimal) : decimal := d.
Definition to_double (d : decimal) : option decimal := Some d.
Definition json_schema (types : list typedef) (exs : list exampledef) (hs : list httpdef) : schema :=
  mkSchema "1.9" "demo" "org" "3" "a demo" types exs [] hs "/v1" [("x_k", "v")].
Definition json_demo : schema := json_schema
  [ tdef "Color" (ts_enum ["red"; "green"]); tdef "Name" (mkTS "String" "" (Some ["a"; "b"]) (Some 1%Z) (Some 9%Z) [] [] None None "" "" [] "" "" "");
    tdef "Coord" (ts_num "Decimal" (Some (DFin 0 0)) (Some (DFin 21 (-1))));
    mkTD "Point" "a point" [("x_a", "1")] (ts_struct [fld "x" true (ts_of "Coord"); fld "in" false (ts_struct [fld "c" true (ts_of "Color")])]) ]
  [] [act "getPoint" "GET" "/points/{id}" [par "id" true "" "" "String"] [par "point" false "" "" "Point"] [mkExc "Name" 404 "" []]].
Definition json_model (sch : schema) : model := model_of sch.

Lemma fits_demo : schema_fits json_demo.
Proof.
  assert (S : forall o, match o with Some z => (0 <= z < 100)%Z | None => True end -> size_fits o).
  { intros o H z ->. lia. }
  assert (B : forall n, spec_fits (ts_of n)) by (intros n; constructor; cbn; try (intros z; discriminate); intros x []).
  assert (C : forall ts, match ts_minsize ts with Some z => (0 <= z < 100)%Z | None => True end ->
     match ts_maxsize ts with Some z => (0 <= z < 100)%Z | None => True end ->
     (forall f : fielddef, In f (ts_fields ts) -> spec_fits (fd_spec f)) -> ts_variants ts = [] -> spec_fits ts).
  { intros ts H1 H2 H3 H4. constructor; auto. rewrite H4. intros v []. }
  split; [|split].
  - intros td I. cbn in I. repeat (destruct I as [<- |I]; [apply C; cbn; try exact Logic.I; try lia; try reflexivity; try (intros f []; fail)|]); [|destruct I].
    intros f [<- |[<- |[]]]; [apply B|]. apply C; cbn; try exact Logic.I; [|reflexivity]. intros g [<- |[]]. apply B.
  - intros o [].
  - intros h [<- |[]]. cbn. split; [|split].
    + intros p [<- |[]]. apply B.
    + intros e [= <-]. cbn. unfold status_fits. split; [lia|]. intros p [<- |[]]. apply B.
    + intros x [<- |[]]. cbn. unfold status_fits. lia.
Qed.

(** ** C78 *)
(** What is loaded, exactly: what [schema_back] leaves of the model.  Sizes and statuses are Go integers. *)
Theorem C78_loaded_exact : forall f64 num m m', schema_fits (m_schema m) ->
  (load_model f64 num (pretty m) = Ok m'
   <-> sc_sadl (m_schema m) <> "" /\ exists sch', schema_back f64 num ts_string (m_schema m) sch' /\ new_model sch' = Ok m').
Proof. exact load_pretty. Qed.
Print Assumptions C78_loaded_exact.
(** The model itself, if it has a version, no examples and defaults, and its bounds are numbers read as they are written.
    Missing: the other models, where it is false. *)
Theorem C78_same_partial : forall f64 num sch m, new_model sch = Ok m -> schema_fits sch -> schema_plain num sch ->
  load_model f64 num (pretty m) = Ok m.
Proof.
  intros f64 num sch m M F P. assert (E : m_schema m = sch) by (apply new_model_inv in M; tauto). rewrite <- E in M, F, P.
  exact (plain_loaded f64 num m M F P).
Qed.
Print Assumptions C78_same_partial.
Example C78_same_partial_case : new_model json_demo = Ok (json_model json_demo) /\ schema_fits json_demo /\ schema_plain keep json_demo
  /\ exists j, pretty (json_model json_demo) = Some j /\ load_model to_double keep (Some j) = Ok (json_model json_demo).
Proof.
  assert (M : new_model json_demo = Ok (json_model json_demo)) by (vm_compute; reflexivity).
  split; [exact M|]. split; [exact fits_demo|]. split.
  - assert (B : forall n, spec_plain keep (ts_of n)) by (intros n; constructor; cbn; [discriminate|intros d [E|E]; discriminate E|intros f []|intros v []]).
    split; [discriminate|]. split; [reflexivity|]. split; [|split].
    + intros td I. cbn in I. repeat (destruct I as [<- |I]; [constructor; cbn; [discriminate| | |intros v []]|]); [..|destruct I];
        try (intros f []; fail); try (intros d [E|E]; (discriminate E || (injection E as <-; split; [eexists _, _; reflexivity|reflexivity]))).
      intros f [<- |[<- |[]]]; (split; [reflexivity|]); [apply B|]. constructor; cbn; [discriminate|intros d [E|E]; discriminate E| |intros v []].
      intros g [<- |[]]. split; [reflexivity|apply B].
    + intros o [].
    + intros h [<- |[]]. split; [intros p [<- |[]]; split; [reflexivity|apply B]|]. intros e p [= <-] [<- |[]]. split; [reflexivity|apply B].
  - eexists. split; [vm_compute; reflexivity|vm_compute; reflexivity].
Qed.
(** Models read from GraphQL and OpenAPI files have no version: their JSON cannot be loaded. *)
Lemma no_version f64 num m : sc_sadl (m_schema m) = "" -> load_model f64 num (pretty m) = Err tt.
Proof.
  intros E. destruct (load_model f64 num (pretty m)) as [m'|[]| |] eqn:L; [exfalso|reflexivity|exfalso|exfalso].
  - unfold pretty in L. destruct (finite _); [|discriminate]. unfold w_schema in L. cbn [entries load_model] in L. unfold str_at in L.
    cbn [at_key String.eqb Ascii.eqb Bool.eqb r_str rbind] in L. rewrite E in L. cbn [String.eqb] in L.
    repeat (let x := fresh in apply rbind_Ok in L as (x & _ & L)). discriminate.
  - exact (pretty_no_crash f64 num m L).
  - exact (load_total f64 num _ L).
Qed.
Theorem C78_imports_not_loaded : forall f64 num m,
  (exists name i doc, to_sadl name i doc = Ok m) \/ (exists read parse name ns paths, gql_import read parse name ns paths = Ok m) ->
  load_model f64 num (pretty m) = Err tt.
Proof.
  intros f64 num m H. apply no_version. destruct H as [(name & i & doc & H) | (read & parse & name & ns & paths & H)].
  - unfold to_sadl in H. apply rbind_Ok in H as (sch & S & H). destruct (new_model sch) as [m1| | |] eqn:M; try discriminate. injection H as <-.
    assert (E : m_schema m1 = sch) by (apply new_model_inv in M; tauto). rewrite E. unfold import_schema in S.
    apply rbind_Ok in S as (tds & _ & S). apply rbind_Ok in S as (hs & _ & S). injection S as <-. reflexivity.
  - unfold gql_import in H. destruct paths as [|p [|q r]]; try discriminate. destruct (read p); try discriminate. destruct (parse s); try discriminate.
    apply rbind_Ok in H as (sch & S & H). destruct (new_model sch) as [m1| | |] eqn:M; try discriminate. injection H as <-.
    assert (E : m_schema m1 = sch) by (apply new_model_inv in M; tauto). rewrite E. unfold gql_schema in S. apply rbind_Ok in S as (x & _ & S). injection S as <-. reflexivity.
Qed.
Print Assumptions C78_imports_not_loaded.
Example C78_imports_not_loaded_case : exists m, to_sadl "demo" (export_info oas_demo) (mkDoc [] []) = Ok m /\ exists j, pretty m = Some j.
Proof. eexists. split; [vm_compute; reflexivity|]. eexists. vm_compute. reflexivity. Qed.
(** A default and an example that are numbers come back as other values. *)
Definition json_defaults : schema := json_schema
  [ tdef "P" (ts_struct [mkField "x" "" [] false (VDec (DFin 5 0)) (ts_of "Int32")]); tdef "T" (ts_of "Timestamp") ]
  [ mkEx "P" "" (VMap [("x", VDec (DFin 5 0))]) "" []; mkEx "T" "" (VPStr "2020-01-01T00:00:00Z") "" [] ] [].
Theorem C78_same_refuted : exists m m', new_model json_defaults = Ok m /\ load_model to_double keep (pretty m) = Ok m' /\ m' <> m
  /\ (forall f64 num, load_model f64 num (pretty m) <> Ok m)
  /\ forall f64 num, load_model f64 num (pretty (json_model oas_demo)) = Err tt.
Proof.
  exists (json_model json_defaults). eexists. split; [vm_compute; reflexivity|]. split; [vm_compute; reflexivity|].
  split; [discriminate|]. split; [|intros f64 num; apply no_version; reflexivity].
  intros f64 num H. assert (P : schema_fits (m_schema (json_model json_defaults))).
  { split; [|split]; [|intros o []|intros h []]. intros td [<- |[<- |[]]]; constructor; cbn; try (intros z; discriminate); try (intros v []; fail).
    intros f [<- |[]]. constructor; cbn; try (intros z; discriminate); intros v []. }
  apply (load_pretty _ _ _ _ P) in H as (_ & sch' & B & M). assert (E : m_schema (json_model json_defaults) = sch') by (apply new_model_inv in M; tauto).
  subst sch'. destruct B as (_ & _ & _ & _ & _ & _ & _ & _ & X & _). inversion X as [|? ? ? ? (_ & _ & _ & _ & V) _]; subst.
  cbn in V. inversion V as [| | | | | | | | | | | | |? ? F]; subst. inversion F as [|? ? ? ? [_ V1] _]; subst. inversion V1.
Qed.
Print Assumptions C78_same_refuted.

(** ** C79 *)
Theorem C79_types_kept : forall X f64 num sch m m', new_model sch = Ok m -> schema_fits sch ->
  (forall td, In td (sc_types sch) -> spec_kept num (td_spec td)) ->
  load_model f64 num (pretty m) = Ok m' ->
  forall ctx n v, vwf v -> ((exists f, validate X m f ctx n v = Ok tt) <-> (exists f, validate X m' f ctx n v = Ok tt)).
Proof.
  intros X f64 num sch m m' M F K L ctx n v. assert (E : m_schema m = sch) by (apply new_model_inv in M; tauto). rewrite <- E in M, F, K.
  exact (loaded_data f64 num X m m' n v ctx F M K L).
Qed.
Print Assumptions C79_types_kept.
Example C79_types_kept_case : exists m', load_model to_double keep (pretty (json_model json_defaults)) = Ok m'
  /\ (exists f, validate demo_ext m' f [] "P" (VMap [("x", VDec (DFin 5 0))]) = Ok tt) /\ forall td, In td (sc_types json_defaults) -> spec_kept keep (td_spec td).
Proof.
  eexists. split; [vm_compute; reflexivity|]. split; [exists 5; vm_compute; reflexivity|].
  intros td [<- |[<- |[]]]; constructor; cbn; try discriminate; try (intros d [E|E]; discriminate E); try (intros v []; fail).
  intros f [<- |[]]. constructor; cbn; try discriminate; try (intros d [E|E]; discriminate E). intros v [].
Qed.
(** With an empty list of values nothing is accepted before, and everything after. *)
Definition json_empty : schema := json_schema [tdef "None" (ts_str "" (Some []))] [] [].
Theorem C79_no_values : exists m m', new_model json_empty = Ok m /\ load_model to_double keep (pretty m) = Ok m'
  /\ (forall X f ctx v, validate X m f ctx "None" v <> Ok tt) /\ forall X s ctx, exists f, validate X m' f ctx "None" (VStr s) = Ok tt.
Proof.
  eexists _, _. split; [vm_compute; reflexivity|]. split; [vm_compute; reflexivity|]. split.
  - intros X f ctx v. destruct f; [discriminate|]. destruct v; cbn; discriminate.
  - intros X s ctx. exists 2. cbn. reflexivity.
Qed.
Print Assumptions C79_no_values.

(** ** C80 *)
(** Examples without numbers, for types without timestamps and unit values; missing: the others, where it is false. *)
Theorem C80_examples_conform_partial : forall X f64 num sch m m' ctx, new_model sch = Ok m -> schema_fits sch ->
  (forall td, In td (sc_types sch) -> spec_kept num (td_spec td)) ->
  load_model f64 num (pretty m) = Ok m' ->
  Forall2 (fun e e' => ex_target e' = ex_target e /\
    (forall n ts, vwf (ex_example e) -> value_kept (ex_example e) -> defines sch n ts ->
     (forall t, leads sch ts t -> ts_type t <> "Timestamp" /\ ts_type t <> "UnitValue") ->
     (exists f, validate X m f ctx n (ex_example e) = Ok tt) -> exists f, validate X m' f ctx n (ex_example e') = Ok tt))
   (sc_examples sch) (sc_examples (m_schema m')).
Proof.
  intros X f64 num sch m m' ctx M F K L. assert (E : m_schema m = sch) by (apply new_model_inv in M; tauto). rewrite <- E in *.
  exact (loaded_examples f64 num X m m' ctx F M K L).
Qed.
Print Assumptions C80_examples_conform_partial.
Definition json_colors : schema := json_schema
  [ tdef "Color" (ts_enum ["red"; "green"]); tdef "Colors" (ts_array "Color" None None) ] [ mkEx "Colors" "" (VArr [VPStr "red"; VPStr "green"]) "" [] ] [].
Example C80_examples_conform_partial_case : exists m', load_model to_double keep (pretty (json_model json_colors)) = Ok m'
  /\ map ex_example (sc_examples (m_schema m')) = [VArr [VStr "red"; VStr "green"]]
  /\ value_kept (VArr [VPStr "red"; VPStr "green"])
  /\ (exists f, validate demo_ext (json_model json_colors) f [] "Colors" (VArr [VPStr "red"; VPStr "green"]) = Ok tt)
  /\ exists f, validate demo_ext m' f [] "Colors" (VArr [VStr "red"; VStr "green"]) = Ok tt.
Proof.
  eexists. split; [vm_compute; reflexivity|]. split; [reflexivity|]. split; [repeat constructor|].
  split; exists 5; vm_compute; reflexivity.
Qed.
(** Numbers and timestamps that conform do not any more after loading, whatever the reader of numbers. *)
Theorem C80_examples_conform_refuted : exists m e1 e2, new_model json_defaults = Ok m /\ sc_examples json_defaults = [e1; e2]
  /\ (exists f, validate demo_ext m f [] "P" (ex_example e1) = Ok tt) /\ (exists f, validate demo_ext m f [] "T" (ex_example e2) = Ok tt)
  /\ forall f64 num m', load_model f64 num (pretty m) = Ok m' -> exists e1' e2', sc_examples (m_schema m') = [e1'; e2']
     /\ (forall X f, validate X m' f [] "P" (ex_example e1') <> Ok tt) /\ (forall X f, validate X m' f [] "T" (ex_example e2') <> Ok tt).
Proof.
  exists (json_model json_defaults). eexists _, _. split; [vm_compute; reflexivity|]. split; [reflexivity|].
  split; [exists 9; vm_compute; reflexivity|]. split; [exists 9; vm_compute; reflexivity|].
  intros f64 num m' H. vm_compute in H. destruct (f64 (DFin 5 0)) as [x|]; [|discriminate]. injection H as <-.
  eexists _, _. split; [reflexivity|]. split.
  - intros X f. destruct f as [|[|f]]; cbn; discriminate.
  - intros X f. destruct f as [|[|f]]; cbn; discriminate.
Qed.
Print Assumptions C80_examples_conform_refuted.

(** ** C81 *)
(** A crash needs a null among the types or the actions; no written text has one.  Missing: the texts with one. *)
Theorem C81_no_crash_partial : forall f64 num text,
  (forall l a, text = Some (JObj l) -> assoc "types" l = Some (JArr a) \/ assoc "http" l = Some (JArr a) -> ~ In JNull a) ->
  load_model f64 num text <> Panic /\ load_model f64 num text <> OutOfFuel.
Proof.
  intros f64 num text H. split; [|apply load_total]. intros P. apply load_crash in P as (l & -> & [(a & E & I) | (a & E & I)]); apply (H l a eq_refl) in I; auto.
Qed.
Print Assumptions C81_no_crash_partial.
Theorem C81_written_no_crash : forall f64 num m, load_model f64 num (pretty m) <> Panic.
Proof. exact pretty_no_crash. Qed.
Print Assumptions C81_written_no_crash.
Theorem C81_no_crash_refuted :
  load_model to_double keep (Some (JObj [("sadl", JStr "1.9"); ("name", JStr "x"); ("types", JArr [JNull])])) = Panic
  /\ load_model to_double keep (Some (JObj [("sadl", JStr "1.9"); ("http", JArr [JNull])])) = Panic.
Proof. split; vm_compute; reflexivity. Qed.
Print Assumptions C81_no_crash_refuted.
Example C81_no_crash_partial_case : forall l a, Some (JObj [("sadl", JStr "1.9"); ("types", JArr [JObj [("name", JStr "A"); ("type", JStr "String")]])]) = Some (JObj l) ->
  assoc "types" l = Some (JArr a) \/ assoc "http" l = Some (JArr a) -> ~ In JNull a.
Proof. intros l a [= <-] [E|E]; [injection E as <-|discriminate E]. intros [I|[]]. discriminate I. Qed.
