(** C23, C24 (validation part), C26-C31: the checks made after a file has been read. *)
From Verif Require Import GoStr Outcome Value Schema Scalars Time Model Misc ParserValidate
  SpecTime SpecModel SpecMisc SpecPV ModelFacts ValidateFacts Demo PVFacts.

(** ** C26 *)
Theorem C26_path_template_exact : forall p,
  validate_http_path p = true <-> exists a, path_part p a /\ template a.
Proof. exact http_path_iff. Qed.
Print Assumptions C26_path_template_exact.
Example C26_met : validate_http_path "/a/{b}/c-{d}{}?x={/{" = true
  /\ map validate_http_path ["/{a"; "/a}"; "/{a{b}}"; "/{a/b}"; "/{a?b}"] = [false; false; false; false; false].
Proof. split; vm_compute; reflexivity. Qed.

(** A wrong path stops an action from being accepted. *)
Theorem C26_accepted_paths : forall X sch m, new_model sch = Ok m ->
  (exists fuel, parser_validate X m fuel = Ok tt) ->
  forall h, In h (sc_http sch) -> exists a, path_part (h_path h) a /\ template a.
Proof.
  intros X sch m Hm [fuel H] h Hh. apply http_path_iff. unfold parser_validate in H. rewrite (schema_of_model sch m Hm) in H.
  apply rbind_Ok in H. destruct H as (_ & _ & H). apply rbind_Ok in H. destruct H as (_ & _ & H).
  assert (H' := proj1 (each_ok _ _) H h Hh). unfold validate_http in H'.
  destruct (validate_http_path (h_path h)); [reflexivity|discriminate].
Qed.
Print Assumptions C26_accepted_paths.

(** ** C27 *)
Theorem C27_source_exact : forall tmpl name header,
  (forall h, parameter_source tmpl name header = FromHeader h <-> header <> "" /\ h = header) /\
  (parameter_source tmpl name header = FromPath <-> header = "" /\ in_path tmpl name) /\
  (forall k, parameter_source tmpl name header = FromQuery k <->
     header = "" /\ ~ in_path tmpl name /\ in_query tmpl name k) /\
  (parameter_source tmpl name header = FromBody <->
     header = "" /\ ~ in_path tmpl name /\ forall k, ~ in_query tmpl name k).
Proof.
  intros tmpl name header.
  split; [intro h; exact (parameter_source_iff tmpl name header (FromHeader h))|].
  split; [exact (parameter_source_iff tmpl name header FromPath)|].
  split; [intro k; exact (parameter_source_iff tmpl name header (FromQuery k))|].
  exact (parameter_source_iff tmpl name header FromBody).
Qed.
Print Assumptions C27_source_exact.
Example C27_met :
  map (fun n => parameter_source "/a/{id}?max={n}&skip={k}" n "") ["id"; "n"; "k"; "max"]
  = [FromPath; FromQuery "max"; FromQuery "skip"; FromBody]
  /\ parameter_source "/a/{id}" "id" "X-Id" = FromHeader "X-Id".
Proof. split; vm_compute; reflexivity. Qed.

(** ** C28-C31: what the parser's last step accepts, exactly *)
Definition demo_param (n t : string) (req path : bool) (query header : string) : paramspec :=
  mkParam header query path (mkField n "" [] req VNil (ts_of t)).
Definition demo_put : httpdef := mkHttp "putPoint" "" "" [] "PUT" "/points/{id}?dry={dry}"
  [demo_param "id" "String" true true "" ""; demo_param "dry" "Bool" false false "dry" "";
   demo_param "body" "Point" true false "" ""]
  (Some (mkExp [demo_param "result" "Point" true false "" ""; demo_param "tag" "String" false false "" "ETag"] 200%Z "" []))
  [mkExc "Oops" 404%Z "" []].
Definition demo_pv_types : list typedef :=
  [ tdef "Coord" (ts_num "Decimal" (Some (DFin 0 0)) (Some (DFin 10 0)));
    tdef "Point" (ts_struct [fld "x" true (ts_of "Coord"); mkField "y" "" [] false (num 7) (ts_of "Coord");
                             fld "tags" false (ts_array "String" None None)]);
    tdef "Oops" (ts_struct [fld "message" false (ts_of "String")]);
    tdef "Currency" (ts_enum ["USD"; "EUR"]);
    tdef "Price" (ts_unitvalue "Coord" "Currency");
    tdef "Points" (ts_array "Point" None None);
    tdef "ByColor" (ts_map "String" "Point") ].
Definition demo_pv_examples : list exampledef :=
  [ mkEx "Point" "one" (VMap [("x", num 1)]) "" [];
    mkEx "Point.y" "" (num 2) "" [];
    mkEx "PutPointRequest" "" (VMap [("id", VStr "a"); ("body", VMap [("x", num 3)])]) "" [];
    mkEx "PutPointResponse" "" (VMap [("result", VMap [("x", num 3)])]) "" [] ].
Definition with_parts types examples http : schema := mkSchema "" "" "" "" "" types examples [] http "" [].
Definition demo_pv : schema := with_parts demo_pv_types demo_pv_examples [demo_put].
Definition model_of (sch : schema) : model := match new_model sch with Ok m => m | _ => mkModel sch [] [] end.

Ltac wf_values := split;
  [intros td f Ht Hf; simpl in Ht; repeat (destruct Ht as [<-|Ht]; [simpl in Hf; repeat (destruct Hf as [<-|Hf]; [repeat constructor; discriminate|]); contradiction|]); contradiction
  |intros ex He; simpl in He; repeat (destruct He as [<-|He]; [repeat (first [apply wf_map; simpl | constructor | discriminate]); simpl; intuition discriminate|]); contradiction].

Theorem C31_accepted_exactly : forall X sch m, new_model sch = Ok m -> values_wf sch -> params_named sch ->
  ((exists fuel, parser_validate X m fuel = Ok tt) <-> model_ok X sch).
Proof. exact parser_validate_iff. Qed.
Print Assumptions C31_accepted_exactly.
Example C31_met : new_model demo_pv = Ok (model_of demo_pv) /\ values_wf demo_pv /\ params_named demo_pv
  /\ parser_validate demo_ext (model_of demo_pv) 9 = Ok tt.
Proof.
  split; [vm_compute; reflexivity|]. split; [wf_values|]. split; [|vm_compute; reflexivity].
  intros h [<-|[]]. split; [|intros x [= <-]]; intros p Hp; simpl in Hp; intuition (subst; discriminate).
Qed.

Section Accepted.
Variable X : ext.
Variable sch : schema.
Variable m : model.
Hypothesis Hm : new_model sch = Ok m.
Hypothesis Hw : values_wf sch.
Hypothesis Hn : params_named sch.
Hypothesis Hv : exists fuel, parser_validate X m fuel = Ok tt.

Lemma accepted_ok : model_ok X sch.
Proof. exact (proj1 (parser_validate_iff X sch m Hm Hw Hn) Hv). Qed.

Lemma accepted_http h : In h (sc_http sch) -> http_ok sch h.
Proof. apply accepted_ok. Qed.

Lemma accepted_bodies h : In h (sc_http sch) ->
  at_most_one body_input (h_inputs h)
  /\ (~ In (h_method h) ["POST"; "PUT"; "PATCH"] -> none body_input (h_inputs h))
  /\ all_defined sch (h_inputs h)
  /\ forall x, h_expected h = Some x ->
       at_most_one body_output (xp_outputs x)
       /\ (xp_status x = 204%Z \/ xp_status x = 304%Z -> none body_output (xp_outputs x))
       /\ all_defined sch (xp_outputs x)
       /\ forall e, In e (h_exceptions h) -> defined sch (xc_type e).
Proof.
  intro Hh. destruct (accepted_http h Hh) as (_ & H1 & H2 & H3 & H4).
  split; [exact H2|]. split; [exact H3|]. split; [exact H1|].
  intros x Hx. destruct (H4 x Hx) as (Ha & Hb & Hc & Hd). auto.
Qed.

Lemma accepted_names :
  (forall td f, In td (sc_types sch) -> ts_type (td_spec td) = "Struct" -> In f (ts_fields (td_spec td)) ->
     defined sch (ts_type (fd_spec f))
     /\ (ts_type (fd_spec f) = "Array" -> defined_or_none sch (ts_items (fd_spec f)))
     /\ (ts_type (fd_spec f) = "Map" -> defined_or_none sch (ts_keys (fd_spec f)) /\ defined_or_none sch (ts_items (fd_spec f)))) /\
  (forall td, In td (sc_types sch) ->
     (ts_type (td_spec td) = "Array" -> defined sch (ts_items (td_spec td)))
     /\ (ts_type (td_spec td) = "Map" -> defined sch (ts_items (td_spec td))
           /\ (ts_items (td_spec td) <> "Any" -> defined sch (ts_keys (td_spec td))))
     /\ (ts_type (td_spec td) = "UnitValue" -> defined sch (ts_value (td_spec td)) /\ defined sch (ts_unit (td_spec td)))
     /\ (In (ts_type (td_spec td)) ["String"; "UUID"] -> defined_or_none sch (ts_reference (td_spec td)))).
Proof.
  destruct accepted_ok as (H & _ & _). split.
  - intros td f Ht Hs Hf. destruct (H td Ht) as (H1 & _). destruct (H1 Hs f Hf) as (Ha & Hb & Hc & _). auto.
  - intros td Ht. destruct (H td Ht) as (_ & H2 & H3 & H4 & H5 & H6). cbv zeta in *. split; [exact H2|]. split.
    + intro E. destruct (H3 E) as [Ha|[Ha Hb]]; [rewrite Ha; split; [apply any_defined|congruence]|auto].
    + split.
      * intro E. destruct (H4 E) as [(v & Hd & _) (u & Hu & _)]. split; eexists; eauto.
      * intros [E|[E|[]]]; symmetry in E; [now apply H5|now apply H6].
Qed.

Lemma accepted_defaults td f : In td (sc_types sch) -> ts_type (td_spec td) = "Struct" -> In f (ts_fields (td_spec td)) ->
  (fd_default f <> VNil -> fd_required f = false /\ accepts X sch (fd_spec f) (fd_default f))
  /\ (ts_values (fd_spec f) = None \/ ts_pattern (fd_spec f) = "").
Proof.
  intros Ht Hs Hf. destruct accepted_ok as (H & _ & _). destruct (H td Ht) as (H1 & _).
  destruct (H1 Hs f Hf) as (_ & _ & _ & Ha & Hb). auto.
Qed.
Lemma accepted_strings td : In td (sc_types sch) -> ts_type (td_spec td) = "String" ->
  ts_values (td_spec td) = None \/ ts_pattern (td_spec td) = "".
Proof. intros Ht Hs. destruct accepted_ok as (H & _ & _). apply (H td Ht). exact Hs. Qed.

Lemma accepted_examples ex : In ex (sc_examples sch) -> example_ok X sch ex.
Proof. apply accepted_ok. Qed.
End Accepted.

(** *** C28 *)
Theorem C28_body_discipline_partial : forall X sch m, new_model sch = Ok m -> values_wf sch -> params_named sch ->
  (exists fuel, parser_validate X m fuel = Ok tt) -> forall h, In h (sc_http sch) ->
  at_most_one body_input (h_inputs h)
  /\ (~ In (h_method h) ["POST"; "PUT"; "PATCH"] -> none body_input (h_inputs h))
  /\ all_defined sch (h_inputs h)
  /\ forall x, h_expected h = Some x ->
       at_most_one body_output (xp_outputs x)
       /\ (xp_status x = 204%Z \/ xp_status x = 304%Z -> none body_output (xp_outputs x))
       /\ all_defined sch (xp_outputs x)
       /\ forall e, In e (h_exceptions h) -> defined sch (xc_type e).
Proof. exact accepted_bodies. Qed.
Print Assumptions C28_body_discipline_partial.
Theorem C28_http_exact : forall sch m, new_model sch = Ok m -> forall h,
  named (h_inputs h) -> (forall x, h_expected h = Some x -> named (xp_outputs x)) ->
  (validate_http m h = Ok tt <-> http_ok sch h).
Proof. exact http_iff. Qed.
Print Assumptions C28_http_exact.
Example C28_met : validate_http (model_of demo_pv) demo_put = Ok tt.
Proof. vm_compute. reflexivity. Qed.
(** Without [expect], exception types are not looked up. *)
Definition lost_exception : schema := with_parts [] []
  [mkHttp "get" "" "" [] "GET" "/" [] None [mkExc "Nowhere" 404%Z "" []]].
Theorem C28_exception_types_refuted : exists sch m h e, new_model sch = Ok m
  /\ (forall X fuel, parser_validate X m fuel = Ok tt)
  /\ In h (sc_http sch) /\ In e (h_exceptions h) /\ ~ defined sch (xc_type e).
Proof.
  exists lost_exception, (model_of lost_exception). eexists. eexists.
  split; [vm_compute; reflexivity|]. split; [intros X [|f]; reflexivity|].
  split; [left; reflexivity|]. split; [left; reflexivity|].
  intros (ts & td & [[H _]|[[] _]] & _). simpl in H. intuition discriminate.
Qed.
Print Assumptions C28_exception_types_refuted.

(** *** C29 *)
Theorem C29_names_resolve_partial : forall X sch m, new_model sch = Ok m -> values_wf sch -> params_named sch ->
  (exists fuel, parser_validate X m fuel = Ok tt) ->
  (forall td f, In td (sc_types sch) -> ts_type (td_spec td) = "Struct" -> In f (ts_fields (td_spec td)) ->
     defined sch (ts_type (fd_spec f))
     /\ (ts_type (fd_spec f) = "Array" -> defined_or_none sch (ts_items (fd_spec f)))
     /\ (ts_type (fd_spec f) = "Map" -> defined_or_none sch (ts_keys (fd_spec f)) /\ defined_or_none sch (ts_items (fd_spec f)))) /\
  (forall td, In td (sc_types sch) ->
     (ts_type (td_spec td) = "Array" -> defined sch (ts_items (td_spec td)))
     /\ (ts_type (td_spec td) = "Map" -> defined sch (ts_items (td_spec td))
           /\ (ts_items (td_spec td) <> "Any" -> defined sch (ts_keys (td_spec td))))
     /\ (ts_type (td_spec td) = "UnitValue" -> defined sch (ts_value (td_spec td)) /\ defined sch (ts_unit (td_spec td)))
     /\ (In (ts_type (td_spec td)) ["String"; "UUID"] -> defined_or_none sch (ts_reference (td_spec td)))).
Proof. exact accepted_names. Qed.
Print Assumptions C29_names_resolve_partial.

(** The positions that are not looked at, each with an accepted schema that leaves a name undefined. *)
Inductive mentions (sch : schema) : string -> Prop :=
| mn_alias td : In td (sc_types sch) -> mentions sch (ts_type (td_spec td))
| mn_variant td v : In td (sc_types sch) -> ts_type (td_spec td) = "Union" -> In v (ts_variants (td_spec td)) ->
    mentions sch (ts_type (uv_spec v))
| mn_nested td f g : In td (sc_types sch) -> ts_type (td_spec td) = "Struct" -> In f (ts_fields (td_spec td)) ->
    ts_type (fd_spec f) = "Struct" -> In g (ts_fields (fd_spec f)) -> mentions sch (ts_type (fd_spec g))
| mn_unit td f : In td (sc_types sch) -> ts_type (td_spec td) = "Struct" -> In f (ts_fields (td_spec td)) ->
    ts_type (fd_spec f) = "UnitValue" -> mentions sch (ts_unit (fd_spec f))
| mn_reference td f : In td (sc_types sch) -> ts_type (td_spec td) = "Struct" -> In f (ts_fields (td_spec td)) ->
    ts_reference (fd_spec f) <> "" -> mentions sch (ts_reference (fd_spec f))
| mn_key td : In td (sc_types sch) -> ts_type (td_spec td) = "Map" -> mentions sch (ts_keys (td_spec td))
| mn_operation op f : In op (sc_operations sch) -> In f (op_inputs op) -> mentions sch (ts_type (fd_spec f)).

Definition ts_union (vs : list string) : typespec :=
  mkTS "Union" "" None None None [] [] None None "" "" (map (fun v => mkVariant v "" [] (ts_of v)) vs) "" "" "".
Definition ts_reff (t r : string) : typespec := mkTS t "" None None None [] [] None None "" "" [] "" "" r.
Definition lost_schemas : list schema :=
  [ with_parts [tdef "A" (ts_of "Nowhere")] [] [];
    with_parts [tdef "A" (ts_union ["Nowhere"])] [] [];
    with_parts [tdef "A" (ts_struct [fld "f" false (ts_struct [fld "g" false (ts_of "Nowhere")])])] [] [];
    with_parts [tdef "A" (ts_struct [fld "f" false (ts_unitvalue "Decimal" "Nowhere")])] [] [];
    with_parts [tdef "A" (ts_struct [fld "f" false (ts_reff "String" "Nowhere")])] [] [];
    with_parts [tdef "A" (ts_map "Nowhere" "Any")] [] [];
    mkSchema "" "" "" "" "" [] [] [mkOp "op" "" [] [fld "f" false (ts_of "Nowhere")] [] []] [] "" [] ].
Theorem C29_unchecked_positions_refuted : forall sch, In sch lost_schemas -> exists m,
  new_model sch = Ok m /\ (forall X fuel, parser_validate X m fuel = Ok tt)
  /\ mentions sch "Nowhere" /\ ~ defined sch "Nowhere".
Proof.
  intros sch H. exists (model_of sch). simpl in H.
  repeat (destruct H as [<-|H]; [|]); [| | | | | | |contradiction];
    (split; [vm_compute; reflexivity|]); (split; [intros X [|f]; reflexivity|]);
    (split; [|intros (ts & td & [[Hd _]|[Hi Hd]] & _); simpl in *; intuition (subst; discriminate)]).
  - apply (mn_alias _ (tdef "A" (ts_of "Nowhere"))). left. reflexivity.
  - eapply (mn_variant _ _ (mkVariant "Nowhere" "" [] (ts_of "Nowhere"))); [left; reflexivity|reflexivity|left; reflexivity].
  - eapply (mn_nested _ _ _ (fld "g" false (ts_of "Nowhere")));
      [left; reflexivity|reflexivity|left; reflexivity|reflexivity|left; reflexivity].
  - eapply (mn_unit _ _ (fld "f" false (ts_unitvalue "Decimal" "Nowhere"))); [left; reflexivity|reflexivity|left; reflexivity|reflexivity].
  - eapply (mn_reference _ _ (fld "f" false (ts_reff "String" "Nowhere"))); [left; reflexivity|reflexivity|left; reflexivity|discriminate].
  - apply (mn_key _ (tdef "A" (ts_map "Nowhere" "Any"))); [left; reflexivity|reflexivity].
  - apply (mn_operation _ (mkOp "op" "" [] [fld "f" false (ts_of "Nowhere")] [] []) (fld "f" false (ts_of "Nowhere"))); [left; reflexivity|left; reflexivity].
Qed.
Print Assumptions C29_unchecked_positions_refuted.

(** *** C30 *)
Theorem C30_defaults : forall X sch m, new_model sch = Ok m -> values_wf sch -> params_named sch ->
  (exists fuel, parser_validate X m fuel = Ok tt) ->
  forall td f, In td (sc_types sch) -> ts_type (td_spec td) = "Struct" -> In f (ts_fields (td_spec td)) ->
  (fd_default f <> VNil -> fd_required f = false /\ accepts X sch (fd_spec f) (fd_default f))
  /\ (ts_values (fd_spec f) = None \/ ts_pattern (fd_spec f) = "").
Proof. exact accepted_defaults. Qed.
Print Assumptions C30_defaults.
Theorem C30_string_types : forall X sch m, new_model sch = Ok m -> values_wf sch -> params_named sch ->
  (exists fuel, parser_validate X m fuel = Ok tt) ->
  forall td, In td (sc_types sch) -> ts_type (td_spec td) = "String" ->
  ts_values (td_spec td) = None \/ ts_pattern (td_spec td) = "".
Proof. exact accepted_strings. Qed.
Print Assumptions C30_string_types.
(** C31_met has the default value 7 for an optional field of a type limited to 0..10. *)
(** Inside an inline struct nothing of this is checked. *)
Definition nested_default : schema := with_parts
  [tdef "A" (ts_struct [fld "f" false (ts_struct
     [mkField "g" "" [] true (VPStr "no number") (mkTS "Int32" "p" (Some ["v"]) None None [] [] None None "" "" [] "" "" "")])])] [] [].
Theorem C30_nested_fields_refuted : exists sch m td f g, new_model sch = Ok m
  /\ (forall X fuel, parser_validate X m fuel = Ok tt)
  /\ In td (sc_types sch) /\ In f (ts_fields (td_spec td)) /\ In g (ts_fields (fd_spec f))
  /\ fd_default g <> VNil /\ fd_required g = true
  /\ (forall X, ~ accepts X sch (fd_spec g) (fd_default g))
  /\ ts_values (fd_spec g) <> None /\ ts_pattern (fd_spec g) <> "".
Proof.
  exists nested_default, (model_of nested_default). do 3 eexists.
  split; [vm_compute; reflexivity|]. split; [intros X [|f]; reflexivity|].
  split; [left; reflexivity|]. split; [left; reflexivity|]. split; [left; reflexivity|].
  split; [discriminate|]. split; [reflexivity|]. split; [|split; discriminate].
  intros X H. cbn in H. inversion H; subst; try discriminate.
  - match goal with H : refers _ _ _ |- _ => destruct H as [H _]; apply H; simpl; tauto end.
Qed.
Print Assumptions C30_nested_fields_refuted.

(** *** C31 *)
Theorem C31_examples_conform : forall X sch m, new_model sch = Ok m -> values_wf sch -> params_named sch ->
  (exists fuel, parser_validate X m fuel = Ok tt) -> forall ex, In ex (sc_examples sch) -> example_ok X sch ex.
Proof. exact accepted_examples. Qed.
Print Assumptions C31_examples_conform.

(** ** C23, C24: the last step of parsing need not return *)
Definition union_example : schema := with_parts [tdef "U" (ts_union ["String"; "Int32"])] [mkEx "U" "" (VPStr "x") "" []] [].
Theorem C23_validation_diverges_refuted : exists sch m, new_model sch = Ok m
  /\ forall X fuel, parser_validate X m fuel = OutOfFuel.
Proof.
  exists union_example, (model_of union_example).
  assert (Hm : new_model union_example = Ok (model_of union_example)) by (vm_compute; reflexivity).
  split; [exact Hm|]. intros X fuel.
  assert (Hd : defines union_example "U" (ts_union ["String"; "Int32"])).
  { eexists. split; [right; split; [left; reflexivity|reflexivity]|reflexivity]. }
  pose proof (declared_union_diverges X _ _ Hm "U" _ Hd eq_refl fuel [] (VPStr "x")) as H.
  unfold validate, validate_named in H.
  change (find_type (model_of union_example) "U") with (Some (tdef "U" (ts_union ["String"; "Int32"]))) in H.
  unfold parser_validate. rewrite (schema_of_model _ _ Hm). cbn [sc_types sc_examples union_example with_parts each].
  replace (validate_typedef X (model_of union_example) fuel (tdef "U" (ts_union ["String"; "Int32"]))) with (@Ok pverror _ tt) by reflexivity.
  cbn [rbind]. unfold validate_example, example_spec. cbn [ex_target ex_example].
  change (find_type (model_of union_example) "U") with (Some (tdef "U" (ts_union ["String"; "Int32"]))).
  cbv iota. unfold conforms. rewrite H. reflexivity.
Qed.
Print Assumptions C23_validation_diverges_refuted.

Definition no_expect : schema := with_parts [] [mkEx "GetFooResponse" "" (VMap []) "" []]
  [mkHttp "getFoo" "" "" [] "GET" "/" [] None []].
Theorem C24_validation_panics_refuted : exists sch m, new_model sch = Ok m
  /\ forall X fuel, parser_validate X m fuel = Panic.
Proof.
  exists no_expect, (model_of no_expect). split; [vm_compute; reflexivity|]. intros X [|f]; reflexivity.
Qed.
Print Assumptions C24_validation_panics_refuted.
