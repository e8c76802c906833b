(** Property theorems for model construction, lookup and validation (C01-C12). *)
From Verif Require Import GoStr Outcome Value Schema Scalars Time Model SpecTime SpecModel TimeFacts
  ModelFacts MemberFacts Demo ValidateFacts.
From Coq Require Import Permutation.

(** ** C01 *)
Theorem C01_new_model_accepts_exactly : forall sch,
  (collision_free sch -> exists m, new_model sch = Ok m) /\
  (~ collision_free sch -> exists e, new_model sch = Err e) /\
  (forall m, new_model sch = Ok m -> collision_free sch).
Proof. exact new_model_iff. Qed.
Print Assumptions C01_new_model_accepts_exactly.
Example C01_collision_free_met : collision_free demo_schema.
Proof. exact (proj2 (proj2 (new_model_iff _)) _ demo_model_ok). Qed.
Example C01_collision_met : ~ collision_free (schema_of [tdef "Map" (ts_of "String")] []).
Proof. intros (_ & H & _). apply (H (tdef "Map" (ts_of "String")) (or_introl eq_refl)). simpl. tauto. Qed.

(** ** C02 *)
Theorem C02_find_type_exact : forall sch m, new_model sch = Ok m ->
  (forall n td, find_type m n = Some td <-> declares sch n td) /\
  (forall n, find_type m n = None <-> ~ In n builtin_names /\ ~ In n (map td_name (sc_types sch))) /\
  (forall n, In n builtin_names -> find_type m n = Some (mkTD n "" [] (ts_of n))).
Proof. exact find_type_exact. Qed.
Print Assumptions C02_find_type_exact.
Theorem C02_find_http_exact : forall sch m, new_model sch = Ok m ->
  (forall n h, find_http m n = Some h <-> In h (sc_http sch) /\ h_name h = n) /\
  (forall n, find_http m n = None <-> ~ In n (map h_name (sc_http sch))).
Proof. exact find_http_exact. Qed.
Print Assumptions C02_find_http_exact.
Example C02_met : new_model demo_schema = Ok demo_model /\ find_type demo_model "Spot" = Some (tdef "Spot" (ts_of "Point")).
Proof. split; [exact demo_model_ok|vm_compute; reflexivity]. Qed.

(** ** C03 *)
(** Full: the validator decides exactly [accepts], the declarative value set with its marked departures. *)
Theorem C03_validate_exact : forall X sch m, new_model sch = Ok m ->
  forall ctx n v, vwf v ->
  ((exists fuel, validate X m fuel ctx n v = Ok tt) <-> exists ts, defines sch n ts /\ accepts X sch ts v).
Proof. intros X sch m Hm ctx n v. exact (validate_iff X sch m Hm n v ctx). Qed.
Print Assumptions C03_validate_exact.
Theorem C03_validate_never_crashes : forall X m fuel ctx n v, validate X m fuel ctx n v <> Panic.
Proof. exact validate_no_panic. Qed.
Print Assumptions C03_validate_never_crashes.
(** A verdict does not depend on the fuel. *)
Theorem C03_verdict_unique : forall X m f1 f2 ctx n v,
  validate X m f1 ctx n v <> OutOfFuel -> validate X m f2 ctx n v <> OutOfFuel ->
  validate X m f1 ctx n v = validate X m f2 ctx n v.
Proof. exact validate_verdict_unique. Qed.
Print Assumptions C03_verdict_unique.
(** Against the natural reading [member]: nothing non-conforming is accepted where no lax rule applies ... *)
Theorem C03_accepted_conforms_partial : forall X sch m, new_model sch = Ok m ->
  forall ctx n v ts, vwf v -> defines sch n ts ->
  (forall ts', leads sch ts ts' -> no_lax X sch ts') ->
  (exists fuel, validate X m fuel ctx n v = Ok tt) -> member X sch ts v.
Proof. exact accepted_conforms. Qed.
Print Assumptions C03_accepted_conforms_partial.
(** ... and no conforming literal is refused where no strict rule applies. *)
Theorem C03_conforming_accepted_partial : forall X sch m, new_model sch = Ok m ->
  forall ctx n v ts, vwf v -> literal v -> defines sch n ts ->
  (forall ts', leads sch ts ts' -> no_strict ts') ->
  member X sch ts v -> exists fuel, validate X m fuel ctx n v = Ok tt.
Proof. exact conforming_accepted. Qed.
Print Assumptions C03_conforming_accepted_partial.
Example C03_point_accepted : validate demo_ext demo_model 5 [] "Where" demo_point = Ok tt /\ vwf demo_point.
Proof. split; [vm_compute; reflexivity|exact demo_point_wf]. Qed.
Example C03_point_refused : validate demo_ext demo_model 5 [] "Where" (VMap [("x", num 3); ("y", num 11)])
  = Err (mkVE EAboveMax (Some [PField "y"])).
Proof. vm_compute; reflexivity. Qed.
Example C03_partial_hypotheses_met :
  let ts := ts_of "Point" in
  defines demo_schema "Spot" ts /\ literal demo_point
  /\ forall ts', leads demo_schema ts ts' -> no_lax demo_ext demo_schema ts' /\ no_strict ts'.
Proof. exact demo_point_plain. Qed.

(** Both directions fail in general. *)
Theorem C03_accepts_nonmember_refuted : exists sch m n v, new_model sch = Ok m /\ vwf v /\
  forall X ctx, validate X m 1 ctx n v = Ok tt /\ forall ts, defines sch n ts -> ~ member X sch ts v.
Proof. exact accepts_nonmember. Qed.
Print Assumptions C03_accepts_nonmember_refuted.
Theorem C03_refuses_member_refuted : exists X sch m n ts v, new_model sch = Ok m /\ vwf v /\ literal v /\
  defines sch n ts /\ member X sch ts v /\ forall fuel ctx, validate X m fuel ctx n v <> Ok tt.
Proof. exact refuses_member. Qed.
Print Assumptions C03_refuses_member_refuted.

(** ** C04 *)
Theorem C04_integer_range_refuted : forall X sch m, new_model sch = Ok m ->
  forall k, In k ["Int8"; "Int16"; "Int32"; "Int64"] -> forall ctx d, validate X m 1 ctx k (VDec d) = Ok tt.
Proof. exact integer_range_unchecked. Qed.
Print Assumptions C04_integer_range_refuted.
(** What does hold: declared limits are enforced, at any depth. *)
Theorem C04_declared_limits_partial : forall X sch m, new_model sch = Ok m ->
  forall ctx n ts v ts' v', vwf v -> defines sch n ts ->
  (exists fuel, validate X m fuel ctx n v = Ok tt) ->
  at_pos sch ts v ts' v' -> In (ts_type ts') number_kinds ->
  exists d, v' = VDec d /\ within d (ts_min ts') (ts_max ts').
Proof. exact declared_limits. Qed.
Print Assumptions C04_declared_limits_partial.
Example C04_met : validate demo_ext demo_model 9 [] "Points" (VArr [demo_point]) = Ok tt
  /\ at_pos demo_schema (ts_array "Point" None (Some 2%Z)) (VArr [demo_point])
       (ts_num "Decimal" (Some (DFin 0 0)) (Some (DFin 10 0))) (num 7).
Proof. exact demo_points_pos. Qed.
Example C04_witness : validate demo_ext demo_model 1 [] "Int8" (VDec (DFin 601 (-1))) = Ok tt.   (* 300.5 *)
Proof. vm_compute; reflexivity. Qed.

(** ** C05 *)
Theorem C05_order_independent : forall X sch m, new_model sch = Ok m ->
  forall v v' ctx n, vwf v -> vperm v v' ->
  ((exists fuel, validate X m fuel ctx n v = Ok tt) <-> (exists fuel, validate X m fuel ctx n v' = Ok tt)).
Proof. exact order_independent. Qed.
Print Assumptions C05_order_independent.
Example C05_met : vperm (VArr [demo_point]) (VArr [VMap [("x", num 3); ("y", num 7)]]) /\ vwf (VArr [demo_point]).
Proof.
  split; [|apply wf_arr; constructor; [exact demo_point_wf|constructor]].
  apply vp_arr. constructor; [|constructor].
  eapply vp_map; [|apply perm_swap]. repeat constructor.
Qed.

(** ** C06 *)
Theorem C06_validate_terminates_partial : forall X sch m, new_model sch = Ok m ->
  forall ts, (forall ts', leads sch ts ts' -> names_end sch ts') ->
  forall v, exists N, forall fuel ctx, N <= fuel -> validate_spec X m fuel ctx ts v <> OutOfFuel.
Proof. intros X sch m Hm ts Hall v. exact (terminates X sch m Hm v ts Hall). Qed.
Print Assumptions C06_validate_terminates_partial.
(** A checkable criterion: alias names can be ranked, and Union is not reached. *)
Theorem C06_ranked_schema_terminates_partial : forall X sch m, new_model sch = Ok m ->
  forall rank : string -> nat,
  (forall td, In td (sc_types sch) -> In (ts_type (td_spec td)) kinds \/
     (ts_type (td_spec td) <> "Union" /\ rank (ts_type (td_spec td)) < rank (td_name td))) ->
  forall ts, (forall ts', leads sch ts ts' -> ts_type ts' <> "Union") ->
  forall v, exists N, forall fuel ctx, N <= fuel -> validate_spec X m fuel ctx ts v <> OutOfFuel.
Proof. exact ranked_terminates. Qed.
Print Assumptions C06_ranked_schema_terminates_partial.
(** The full claim fails: in every model, validating anything against Union never returns ... *)
Theorem C06_union_diverges_refuted : forall X sch m, new_model sch = Ok m ->
  forall fuel ctx v, validate X m fuel ctx "Union" v = OutOfFuel.
Proof. exact union_diverges. Qed.
Print Assumptions C06_union_diverges_refuted.
(** ... and so for a declared union, and for a cycle of alias definitions. *)
Theorem C06_declared_union_diverges_refuted : forall X sch m, new_model sch = Ok m ->
  forall n ts, defines sch n ts -> ts_type ts = "Union" ->
  forall fuel ctx v, validate X m fuel ctx n v = OutOfFuel.
Proof. exact declared_union_diverges. Qed.
Print Assumptions C06_declared_union_diverges_refuted.
Theorem C06_alias_cycle_diverges_refuted : exists sch m, new_model sch = Ok m /\
  forall X fuel ctx v, validate X m fuel ctx "Loop" v = OutOfFuel.
Proof. exact alias_cycle_diverges. Qed.
Print Assumptions C06_alias_cycle_diverges_refuted.
Example C06_met : forall ts', leads demo_schema (ts_of "Point") ts' -> names_end demo_schema ts'.
Proof. exact demo_point_ends. Qed.

(** ** C07 *)
Theorem C07_alias_transparent : forall X sch m, new_model sch = Ok m ->
  forall n ctx ts ts' v r, refers_chain sch n ts ts' ->
  (returns X m ctx ts v r <-> returns X m ctx ts' v r).
Proof. exact chain_returns. Qed.
Print Assumptions C07_alias_transparent.
Theorem C07_unknown_end_rejected : forall X sch m, new_model sch = Ok m ->
  forall n ctx ts ts' v, refers_chain sch n ts ts' ->
  ~ In (ts_type ts') kinds -> (forall t, ~ defines sch (ts_type ts') t) ->
  returns X m ctx ts v (Err (mkVE (ENoSuchType (ts_type ts')) (Some ctx))).
Proof. exact unknown_end_rejected. Qed.
Print Assumptions C07_unknown_end_rejected.
Theorem C07_one_result : forall X sch m, new_model sch = Ok m ->
  forall ctx ts v r1 r2, returns X m ctx ts v r1 -> returns X m ctx ts v r2 -> r1 = r2.
Proof. intros X sch m _. exact (returns_fun X m). Qed.
Print Assumptions C07_one_result.
Example C07_met : exists ts', refers_chain demo_schema 3 (ts_of "Where") ts' /\ ts_type ts' = "Struct".
Proof. exact demo_chain. Qed.
Example C07_unknown_met : refers_chain demo_schema 1 (ts_of "Lost") (ts_of "Nowhere")
  /\ ~ In "Nowhere" kinds /\ forall t, ~ defines demo_schema "Nowhere" t.
Proof. exact demo_unknown_chain. Qed.

(** ** C08 *)
Theorem C08_structs_closed_at_depth : forall X sch m, new_model sch = Ok m ->
  forall ctx n ts v ts' v', vwf v -> defines sch n ts ->
  (exists fuel, validate X m fuel ctx n v = Ok tt) ->
  at_pos sch ts v ts' v' -> ts_type ts' = "Struct" ->
  exists l, v' = VMap l
    /\ (forall k, In k (map fst l) -> exists f, In f (ts_fields ts') /\ fd_name f = k)
    /\ (forall f, In f (ts_fields ts') -> fd_required f = true -> In (fd_name f) (map fst l))
    /\ (forall f x c, In f (ts_fields ts') -> In (fd_name f, x) l ->
          exists fuel, validate_spec X m fuel c (fd_spec f) x = Ok tt).
Proof. exact structs_closed. Qed.
Print Assumptions C08_structs_closed_at_depth.
Example C08_met : validate demo_ext demo_model 9 [] "Points" (VArr [demo_point]) = Ok tt
  /\ at_pos demo_schema (ts_array "Point" None (Some 2%Z)) (VArr [demo_point])
      (ts_struct [fld "x" true (ts_of "Decimal"); fld "y" false (ts_of "Coord")]) demo_point.
Proof. exact demo_points_struct. Qed.

(** ** C09 *)
Theorem C09_collections_partial : forall X sch m, new_model sch = Ok m ->
  forall ctx n ts v ts' v', vwf v -> defines sch n ts ->
  (exists fuel, validate X m fuel ctx n v = Ok tt) ->
  at_pos sch ts v ts' v' ->
  (ts_type ts' = "Array" -> exists l, v' = VArr l
     /\ at_least (length l) (ts_minsize ts') /\ at_most (length l) (ts_maxsize ts')
     /\ forall x c, In x l -> exists fuel, validate X m fuel c (ts_items ts') x = Ok tt) /\
  (ts_type ts' = "Map" -> exists l, v' = VMap l
     /\ at_least (length l) (ts_minsize ts') /\ at_most (length l) (ts_maxsize ts')
     /\ forall k x c, In (k, x) l -> exists fuel, validate X m fuel c (ts_items ts') x = Ok tt).
Proof. exact collections. Qed.
Print Assumptions C09_collections_partial.
(** Keys are never looked at. *)
Theorem C09_map_keys_refuted : exists sch m n ts v k, new_model sch = Ok m /\ vwf v /\ defines sch n ts /\
  ts_type ts = "Map" /\ v = VMap [(k, num 1)] /\
  forall X ctx, validate X m 2 ctx n v = Ok tt /\ validate X m 1 ctx (ts_keys ts) (VStr k) <> Ok tt.
Proof. exact map_keys_unchecked. Qed.
Print Assumptions C09_map_keys_refuted.
Example C09_too_long_refused : validate demo_ext demo_model 9 [] "Points" (VArr [demo_point; demo_point; demo_point])
  = Err (mkVE ETooLarge (Some [])).
Proof. vm_compute; reflexivity. Qed.

(** ** C10 *)
Theorem C10_string_constraints_partial : forall X sch m, new_model sch = Ok m ->
  forall ctx n ts v ts' v', vwf v -> defines sch n ts ->
  (exists fuel, validate X m fuel ctx n v = Ok tt) ->
  at_pos sch ts v ts' v' -> ts_type ts' = "String" ->
  exists s, text_of v' s
    /\ at_least (String.length s) (ts_minsize ts') /\ at_most (String.length s) (ts_maxsize ts')
    /\ (forall vs, ts_values ts' = Some vs -> In s vs)
    /\ (ts_values ts' = None -> pattern_ok X (ts_pattern ts') s).
Proof. exact string_constraints. Qed.
Print Assumptions C10_string_constraints_partial.
(** With both values and pattern, the pattern is ignored. *)
Theorem C10_pattern_ignored_refuted : exists X sch m n ts s, new_model sch = Ok m /\ defines sch n ts /\
  ts_type ts = "String" /\ ts_pattern ts <> EmptyString /\
  (forall ctx, validate X m 1 ctx n (VPStr s) = Ok tt) /\ ~ pattern_ok X (ts_pattern ts) s.
Proof. exact pattern_ignored. Qed.
Print Assumptions C10_pattern_ignored_refuted.
Example C10_met : validate demo_ext demo_model 2 [] "Both" (VPStr "b") = Ok tt
  /\ validate demo_ext demo_model 2 [] "Both" (VPStr "c") = Err (mkVE EValues None).
Proof. vm_compute; auto. Qed.

(** ** C11 *)
Theorem C11_uuid_shape_partial : forall s, parse_uuid s <> EmptyString <-> uuid_shape (fun _ => True) s.
Proof. exact parse_uuid_shape. Qed.
Print Assumptions C11_uuid_shape_partial.
Theorem C11_parse_uuid_keeps_text : forall s, parse_uuid s <> EmptyString -> parse_uuid s = s.
Proof. exact parse_uuid_text. Qed.
Print Assumptions C11_parse_uuid_keeps_text.
Theorem C11_validate_agrees : forall X m ctx ts s v fuel, ts_type ts = "UUID" -> text_of v s ->
  (validate_spec X m (S fuel) ctx ts v = Ok tt <-> parse_uuid s <> EmptyString).
Proof. exact uuid_validate_agrees. Qed.
Print Assumptions C11_validate_agrees.
Theorem C11_uuid_hex_refuted : exists s, parse_uuid s = s /\ s <> EmptyString /\ ~ uuid_shape hex_digit s.
Proof. exact uuid_not_hex. Qed.
Print Assumptions C11_uuid_hex_refuted.
(** The documented form is accepted. *)
Theorem C11_documented_form_accepted : forall s, uuid_shape hex_digit s -> parse_uuid s = s.
Proof. exact uuid_documented. Qed.
Print Assumptions C11_documented_form_accepted.
Example C11_met : uuid_shape hex_digit "1ce437b0-1dd2-11b2-81ef-003ee1be85f9".
Proof. exact demo_uuid. Qed.

(** ** C12 *)
Theorem C12_parse_unit_exact : forall X s d u,
  parse_unitvalue X s = Some (mkUV d u) <->
  exists a, s = a +++ String " " u /\ smem " " a = false /\ a <> EmptyString /\ u <> EmptyString
         /\ x_decimal X a = Some d.
Proof. exact parse_unitvalue_iff. Qed.
Print Assumptions C12_parse_unit_exact.
Theorem C12_unit_round_trip : forall X fmt q,
  x_decimal X (fmt (uvl_value q)) = Some (uvl_value q) -> smem " " (fmt (uvl_value q)) = false ->
  fmt (uvl_value q) <> EmptyString -> uvl_unit q <> EmptyString ->
  parse_unitvalue X (unitvalue_string fmt q) = Some q.
Proof. exact unit_round_trip. Qed.
Print Assumptions C12_unit_round_trip.
(** Agreement of validator and reader, where the numeral has three characters or more and the unit is not empty. *)
Theorem C12_validate_agrees_partial : forall X sch m, new_model sch = Ok m ->
  forall ctx ts a u, ts_type ts = "UnitValue" -> smem " " a = false -> 3 <= String.length a -> u <> EmptyString ->
  ((exists fuel, validate_spec X m fuel ctx ts (VPStr (a +++ String " " u)) = Ok tt) <->
   exists d, parse_unitvalue X (a +++ String " " u) = Some (mkUV d u)
     /\ (exists fuel, validate X m fuel ctx (ts_value ts) (VDec d) = Ok tt)
     /\ (exists fuel, validate X m fuel ctx (ts_unit ts) (VStr u) = Ok tt)).
Proof. exact unit_validate_agrees. Qed.
Print Assumptions C12_validate_agrees_partial.
(** A short numeral is refused although it parses and its parts conform. *)
Theorem C12_short_number_refuted : exists X sch m ts s d u, new_model sch = Ok m /\ ts_type ts = "UnitValue" /\
  parse_unitvalue X s = Some (mkUV d u) /\
  (forall ctx, validate X m 2 ctx (ts_value ts) (VDec d) = Ok tt /\ validate X m 2 ctx (ts_unit ts) (VStr u) = Ok tt) /\
  forall fuel ctx, validate_spec X m fuel ctx ts (VPStr s) <> Ok tt.
Proof. exact unit_short_refused. Qed.
Print Assumptions C12_short_number_refuted.
(** An empty unit is accepted although the text does not parse. *)
Theorem C12_empty_unit_refuted : exists X sch m ts s, new_model sch = Ok m /\ ts_type ts = "UnitValue" /\
  parse_unitvalue X s = None /\ forall ctx, validate_spec X m 3 ctx ts (VPStr s) = Ok tt.
Proof. exact unit_empty_accepted. Qed.
Print Assumptions C12_empty_unit_refuted.
Example C12_met : parse_unitvalue demo_ext "100 USD" = Some (mkUV (DFin 100 0) "USD")
  /\ validate demo_ext demo_model 3 [] "Price" (VPStr "100 USD") = Ok tt.
Proof. vm_compute; auto. Qed.
Example C12_round_trip_met : let fmt := fun _ : decimal => "1.5" in let q := mkUV (DFin 3 (-1)) "kg/m" in
  x_decimal demo_ext (fmt (uvl_value q)) = Some (uvl_value q) /\ smem " " (fmt (uvl_value q)) = false.
Proof. vm_compute; auto. Qed.
