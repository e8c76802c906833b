(** C88, C89: what an OpenAPI document is read as, and the data its types accept. *)
From Verif Require Import GoStr Outcome Value Schema Scalars Model SpecTime SpecModel ModelFacts ValidateFacts SpecPV Misc MiscFacts SpecMisc SpecGen
  OpenApi OpenApiImport SpecOpenApi OpenApiFacts SpecImport SpecOpenData ImportFacts ImportRound ImportRead ImportData ImportFits ImportMeans.

(** ** C88 *)
(** One type for each named schema, and no other: [type_of] says which, for every schema that can be read. *)
Theorem C88_types_exact : forall name i doc m, keys_once (od_schemas doc) -> to_sadl name i doc = Ok m ->
  (forall n s, In (n, s) (od_schemas doc) -> def_kept n s -> exists td, In td (sc_types (m_schema m)) /\ type_of (od_schemas doc) n s td)
  /\ (forall td, In td (sc_types (m_schema m)) -> exists n s, In (n, s) (od_schemas doc) /\ def_kept n s /\ type_of (od_schemas doc) n s td).
Proof. exact types_read. Qed.
Print Assumptions C88_types_exact.
(** One action for each operation under GET, PUT, POST, DELETE and HEAD, and no other: its name, comment, resource and
    tags, its path with the query parameters in their order, its inputs in theirs and then the body, the expected
    answer with its headers, the others as exceptions. *)
Theorem C88_actions_exact : forall name i doc m, keys_once (od_paths doc) -> doc_maps doc -> to_sadl name i doc = Ok m ->
  (forall p mth op, op_read doc p mth op -> exists h, In h (sc_http (m_schema m)) /\ action_of p mth op h)
  /\ (forall h, In h (sc_http (m_schema m)) -> exists p mth op, op_read doc p mth op /\ action_of p mth op h).
Proof. exact actions_read. Qed.
Print Assumptions C88_actions_exact.
Definition no_info : oinfo := mkInfo "3.0.0" "t" "" "1" None [].
Definition scalar (t f : string) : oas := mkOas "" t f "" "" None None 0%Z None None None None None [] [].
Definition pointer (n : string) : oas := mkOas ("#/components/schemas/" +++ n) "" "" "" "" None None 0%Z None None None None None [] [].
Definition enum_of (l : list string) : oas := mkOas "" "string" "" "" "" None None 0%Z None (Some l) None None None [] [].
Definition array_of (i : oas) : oas := mkOas "" "array" "" "" "" None None 0%Z None None (Some i) None None [] [].
Definition object_of (ps : list (string * oas)) (req : list string) : oas := mkOas "" "object" "" "" "" None None 0%Z None None None None (Some ps) req [].
Definition map_of (s : oas) : oas := mkOas "" "object" "" "" "" None None 0%Z None None None (Some s) None [] [].
Definition ten : oas := mkOas "" "integer" "int32" "" "" (Some (DFin 0 0)) (Some (DFin 10 0)) 0%Z None None None None None [] [].
Definition short : oas := mkOas "" "string" "" "" "" None None 0%Z (Some 1%Z) None None None None [] [].
Definition read_demo : oasdoc := mkDoc
  [("Point", object_of [("x", ten); ("color", pointer "Color"); ("near", pointer "Points"); ("names", array_of (scalar "string" "")); ("id", scalar "string" "uuid")] ["x"]);
   ("Color", enum_of ["red"; "green"]); ("Points", array_of (pointer "Point")); ("Spot", pointer "Point"); ("Label", short)]
  [("/points/{id}",
     [("GET", mkOOp "getPoint" "read one" [""; "points"; "a"; "b"] [mkOParam "path" "id" true "" (scalar "string" ""); mkOParam "query" "how-many" false "how many" (scalar "integer" "int64")] None
        [("200", mkOResp "here" [("X-Etag", ("tag", scalar "string" ""))] (Some (pointer "Point"))); ("404", mkOResp "not here" [] (Some (pointer "Label"))); ("default", mkOResp "else" [] None)] false);
      ("PUT", mkOOp "putPoint" "" [] [mkOParam "path" "id" true "" (scalar "string" "")] (Some ("it", pointer "Point")) [("204", mkOResp "done" [] None)] true);
      ("POST", mkOOp "addPoint" "" [] [] (Some ("it", object_of [("a", scalar "string" "")] [])) [("201", mkOResp "done" [] None)] true);
      ("PATCH", mkOOp "changePoint" "" [] [] (Some ("it", pointer "Point")) [("204", mkOResp "done" [] None)] true)])].
Example C88_types_exact_case : exists m, keys_once (od_schemas read_demo) /\ keys_once (od_paths read_demo) /\ doc_maps read_demo /\ to_sadl "n" no_info read_demo = Ok m
  /\ map (fun td => (td_name td, ts_type (td_spec td))) (sc_types (m_schema m)) = [("Point", "Struct"); ("Color", "Enum"); ("Points", "Array"); ("Spot", "Struct"); ("Label", "String")]
  /\ map (fun h => (h_name h, h_path h)) (sc_http (m_schema m)) = [("getPoint", "/points/{id}?how-many={howmany}"); ("putPoint", "/points/{id}"); ("addPoint", "/points/{id}")].
Proof.
  eexists. split; [repeat constructor; simpl; intuition discriminate|]. split; [repeat constructor; simpl; intuition discriminate|]. split.
  - split; [repeat constructor; simpl; intuition discriminate|]. intros t pi [E|[]]. injection E as <- <-. split; [repeat constructor; simpl; intuition discriminate|].
    intros mth op I. simpl in I. repeat (destruct I as [I|I]; [injection I as <- <-; repeat constructor; simpl; intuition discriminate|]). destruct I.
  - split; [vm_compute; reflexivity|]. split; reflexivity.
Qed.
(** An operation under PATCH is lost; so is a body whose schema has no name; the format of a parameter is lost, a
    number of 64 bits becomes an Int32. *)
Theorem C88_kept_refuted : exists doc m, to_sadl "n" no_info doc = Ok m
  /\ (exists op, doc_op doc "/points/{id}" "PATCH" op /\ oo_id op = "changePoint" /\ ~ exists h, In h (sc_http (m_schema m)) /\ h_name h = "changePoint")
  /\ (exists op b h, doc_op doc "/points/{id}" "POST" op /\ oo_body op = Some b /\ In h (sc_http (m_schema m)) /\ h_name h = oo_id op /\ h_inputs h = [])
  /\ (exists op p h i, doc_op doc "/points/{id}" "GET" op /\ In p (oo_params op) /\ op_pname p = "how-many" /\ o_format (op_schema p) = "int64"
      /\ In h (sc_http (m_schema m)) /\ h_name h = oo_id op /\ In i (h_inputs h) /\ ps_query i = "how-many" /\ ts_type (fd_spec (ps_field i)) = "Int32").
Proof.
  exists read_demo. eexists. split; [vm_compute; reflexivity|]. split; [|split].
  - eexists. split; [eexists; split; [left; reflexivity|right; right; right; left; reflexivity]|]. split; [reflexivity|]. intros (h & I & E). simpl in I. intuition (subst; discriminate).
  - eexists _, _, _. split; [eexists; split; [left; reflexivity|right; right; left; reflexivity]|]. split; [reflexivity|]. split; [right; right; left; reflexivity|]. split; reflexivity.
  - eexists _, _, _, _. split; [eexists; split; [left; reflexivity|left; reflexivity]|]. split; [right; left; reflexivity|]. split; [reflexivity|]. split; [reflexivity|].
    split; [left; reflexivity|]. split; [reflexivity|]. split; [right; left; reflexivity|]. split; reflexivity.
Qed.
Print Assumptions C88_kept_refuted.

(** ** C89 *)
(** A type read from a named schema accepts exactly the data that the schema describes, for all data and all named
    schemas in [plain_defs]: numbers with bounds, strings with lengths, patterns and values, enums, uuids, times, arrays
    of named schemas or of plain items, objects nested and recursive, and other names for these.  Missing: that
    properties not mentioned are allowed, that an integer is whole, that a time may be a plain string (the first
    arguments of [fits] say how it is), and the schemas outside [plain], for all of which it is false (next
    theorem). *)
Theorem C89_data_partial : forall name i doc m K, keys_once (od_schemas doc) -> to_sadl name i doc = Ok m -> plain_defs (od_schemas doc) K ->
  forall X ctx n d v, K n -> In (n, d) (od_schemas doc) -> vwf v ->
  ((exists k, validate X m k ctx n v = Ok tt) <-> fits X (fun _ => True) (fun v s => v = VPStr s) true (od_schemas doc) d v).
Proof. exact read_data. Qed.
Print Assumptions C89_data_partial.
Lemma pointed_to n : n <> "" -> ref_to (pointer n) n.
Proof. intros N. split; [exact N|]. left. reflexivity. Qed.
Example C89_data_partial_case : exists m, keys_once (od_schemas read_demo) /\ to_sadl "n" no_info read_demo = Ok m
  /\ plain_defs (od_schemas read_demo) (fun n => In n ["Point"; "Color"; "Points"; "Spot"; "Label"]).
Proof.
  eexists. split; [repeat constructor; simpl; intuition discriminate|]. split; [vm_compute; reflexivity|].
  assert (PT : plain (fun n => In n ["Point"; "Color"; "Points"; "Spot"; "Label"])
    (object_of [("x", ten); ("color", pointer "Color"); ("near", pointer "Points"); ("names", array_of (scalar "string" "")); ("id", scalar "string" "uuid")] ["x"])).
  { apply pl_object; try reflexivity.
    - intros ps E. injection E as <-. repeat constructor; simpl; intuition discriminate.
    - intros k [<-|[]]. eexists. split; [reflexivity|]. simpl. tauto.
    - intros ps k p E I. injection E as <-. destruct I as [I|[I|[I|[I|[I|[]]]]]]; injection I as <- <-.
      + right. apply pl_number; [reflexivity|simpl; tauto].
      + left. exists "Color". split; [now apply pointed_to|simpl; tauto].
      + left. exists "Points". split; [now apply pointed_to|simpl; tauto].
      + right. eapply pl_array; try reflexivity. right. split; [reflexivity|]. right. left. auto.
      + right. apply pl_formatted; try reflexivity. simpl. tauto. }
  intros n [<-|[<-|[<-|[<-|[<-|[]]]]]].
  - eexists. split; [left; reflexivity|]. split; [repeat split; discriminate|]. left. exact PT.
  - eexists. split; [right; left; reflexivity|]. split; [repeat split; discriminate|]. left. eapply pl_symbols; try reflexivity.
    + repeat apply Forall_cons; try apply Forall_nil; apply is_symbol_iff; reflexivity.
    + simpl. intuition discriminate.
  - eexists. split; [right; right; left; reflexivity|]. split; [repeat split; discriminate|]. left. eapply pl_array; try reflexivity. left. exists "Point". split; [now apply pointed_to|simpl; tauto].
  - eexists. split; [right; right; right; left; reflexivity|]. split; [repeat split; discriminate|]. right. exists "Point". eexists. split; [now apply pointed_to|]. split; [left; reflexivity|exact PT].
  - eexists. split; [right; right; right; right; left; reflexivity|]. split; [repeat split; discriminate|]. left. apply pl_text; try reflexivity; [simpl; intuition discriminate|].
    split; [split; simpl; lia|]. intros z E. injection E as <-. split; lia.
Qed.
(** Read naturally ([fits] with the first arguments as here) a document and its types differ: a property that is not
    mentioned is refused, a map accepts nothing but an empty one, a name for a name accepts nothing but an empty
    object; what a schema without a name says about the items of an array is lost, an integer may be a
    fraction. *)
Definition odd_doc : oasdoc := mkDoc
  [("Thing", object_of [("a", scalar "boolean" "")] []); ("Table", map_of (scalar "boolean" "")); ("A", pointer "B"); ("B", pointer "C"); ("C", scalar "boolean" "");
   ("Shorts", array_of short); ("Whole", scalar "integer" "int32")] [].
Theorem C89_data_refuted : forall X ctx, exists doc m, to_sadl "n" no_info doc = Ok m
  /\ let ok := fits X whole_number text_of false (od_schemas doc) in
     (exists v d, In ("Thing", d) (od_schemas doc) /\ ok d v /\ exists e, validate X m 5 ctx "Thing" v = Err e)
  /\ (exists v d, In ("Table", d) (od_schemas doc) /\ ok d v /\ exists e, validate X m 5 ctx "Table" v = Err e)
  /\ (exists v d, In ("A", d) (od_schemas doc) /\ ok d v /\ exists e, validate X m 5 ctx "A" v = Err e)
  /\ (exists v d, In ("Shorts", d) (od_schemas doc) /\ ~ ok d v /\ validate X m 5 ctx "Shorts" v = Ok tt)
  /\ (exists v d, In ("Whole", d) (od_schemas doc) /\ ~ ok d v /\ validate X m 5 ctx "Whole" v = Ok tt).
Proof.
  intros X ctx. exists odd_doc. eexists. split; [vm_compute; reflexivity|]. cbv zeta.
  assert (NT : forall s, o_ref s = "" -> ~ has_target s) by (intros s; apply no_target).
  split; [|split; [|split; [|split]]].
  - exists (VMap [("b", VNil)]). eexists. split; [left; reflexivity|]. split; [|eexists; reflexivity]. apply ft_object; [apply NT; reflexivity|reflexivity|intros k []| |].
    + intros ps k p x E I J. injection E as <-. destruct I as [I|[]]. injection I as <- <-. destruct J as [J|[]]. discriminate.
    + intros k x _ _. right. auto.
  - exists (VMap [("b", VBool true)]). eexists. split; [right; left; reflexivity|]. split; [|eexists; reflexivity]. apply ft_object; [apply NT; reflexivity|reflexivity|intros k []|intros ps k p x E; discriminate|].
    intros k x [E|[]] _. injection E as <- <-. left. eexists. split; [reflexivity|]. apply ft_bool; [apply NT; reflexivity|reflexivity].
  - exists (VBool true). eexists. split; [right; right; left; reflexivity|]. split; [|eexists; reflexivity].
    eapply ft_ref; [now apply pointed_to|right; right; right; left; reflexivity|]. eapply ft_ref; [now apply pointed_to|right; right; right; right; left; reflexivity|].
    apply ft_bool; [apply NT; reflexivity|reflexivity].
  - exists (VArr [VStr "ab"]). eexists. split; [right; right; right; right; right; left; reflexivity|]. split; [|reflexivity]. intros F.
    inversion F as [s n d v R| | | | | | | | | |s l _ T FI|]; subst; try discriminate; [exact (NT (array_of short) eq_refl (ex_intro _ n R))|].
    specialize (FI short (VStr "ab") eq_refl (or_introl eq_refl)).
    inversion FI as [s n d v R| | |s v t _ _ _ TX _ MX _ _|s t _ _ FM|s v t _ _ FM|s t _ _ FM|s v w t _ _ FM| | | |]; subst; try discriminate; [exact (NT short eq_refl (ex_intro _ n R))|].
    destruct TX as [TX|TX]; [|discriminate]. injection TX as <-. specialize (MX 1%Z eq_refl). simpl in MX. lia.
  - exists (VDec (DFin 3 (-1))). eexists. split; [right; right; right; right; right; right; left; reflexivity|]. split; [|reflexivity]. intros F.
    inversion F as [s n d v R| | |s v t _ T|s t _ T|s v t _ T|s t _ T|s v w t _ T|s d _ T|s d _ _ WH _| |]; subst; try discriminate; [exact (NT (scalar "integer" "int32") eq_refl (ex_intro _ n R))|].
    destruct WH as (z & (k & L1 & L2 & L3) & (k' & M1 & M2 & M3)).
    assert (E1 : (2 ^ (0 - k) = 2 * 2 ^ (-1 - k))%Z) by (rewrite <- (Z.pow_succ_r 2 (-1 - k)) by lia; f_equal; lia).
    assert (E2 : (2 ^ (0 - k') = 2 * 2 ^ (-1 - k'))%Z) by (rewrite <- (Z.pow_succ_r 2 (-1 - k')) by lia; f_equal; lia).
    assert (P1 : (0 < 2 ^ (-1 - k))%Z) by (apply Z.pow_pos_nonneg; lia). assert (P2 : (0 < 2 ^ (-1 - k'))%Z) by (apply Z.pow_pos_nonneg; lia). rewrite E1 in L3. rewrite E2 in M3.
    assert (A1 : (3 <= 2 * z)%Z) by nia. assert (A2 : (2 * z <= 3)%Z) by nia. lia.
Qed.
Print Assumptions C89_data_refuted.
