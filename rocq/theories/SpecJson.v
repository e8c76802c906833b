(** What is left of a schema once it has gone through a JSON text; written without the functions of JsonAst.v. *)
From Verif Require Import GoStr Value Schema.

Section Back.
(** what a JSON number becomes as an untyped value; what it becomes as a Decimal; the text of a time *)
Context (f64 : decimal -> option decimal) (num : decimal -> decimal) (time_str : timestamp -> string).

Definition number (d : decimal) : Prop := exists m e, d = DFin m e.

(** Untyped values: numbers are float64, texts are strings. *)
Inductive value_back : value -> value -> Prop :=
| vb_nil : value_back VNil VNil
| vb_bool b : value_back (VBool b) (VBool b)
| vb_pbool b : value_back (VPBool b) (VBool b)
| vb_str s : value_back (VStr s) (VStr s)
| vb_pstr s : value_back (VPStr s) (VStr s)
| vb_uuid s : value_back (VUuid s) (VStr s)
| vb_dec d x : number d -> f64 d = Some x -> value_back (VDec d) (VFloat64 x)
| vb_decv d x : number d -> f64 d = Some x -> value_back (VDecV d) (VFloat64 x)
| vb_float d x : number d -> f64 d = Some x -> value_back (VFloat64 d) (VFloat64 x)
| vb_int z x : f64 (DFin z 0) = Some x -> value_back (VInt z) (VFloat64 x)
| vb_int32 z x : f64 (DFin z 0) = Some x -> value_back (VInt32 z) (VFloat64 x)
| vb_time t : value_back (VTime t) (VStr (time_str t))
| vb_arr l l' : Forall2 value_back l l' -> value_back (VArr l) (VArr l')
| vb_map l l' : Forall2 (fun a b => fst a = fst b /\ value_back (snd a) (snd b)) l l' -> value_back (VMap l) (VMap l').

(** a list of values without values is none *)
Definition values_back (o o' : option (list string)) : Prop :=
  (o = Some [] /\ o' = None) \/ (o <> Some [] /\ o' = o).
Definition limit_back (o o' : option decimal) : Prop :=
  (o = None /\ o' = None) \/ exists d, o = Some d /\ number d /\ o' = Some (num d).

Inductive spec_back : typespec -> typespec -> Prop :=
| sb t p vs vs' mns mxs (fs fs' : list fielddef) els mn mn' mx mx' it k (vars vars' : list variantdef) u w r :
    values_back vs vs' -> limit_back mn mn' -> limit_back mx mx' ->
    Forall2 (fun f g : fielddef => fd_name g = fd_name f /\ fd_comment g = fd_comment f /\ fd_annos g = fd_annos f
               /\ fd_required g = fd_required f /\ value_back (fd_default f) (fd_default g) /\ spec_back (fd_spec f) (fd_spec g)) fs fs' ->
    Forall2 (fun f g : variantdef => uv_name g = uv_name f /\ uv_comment g = uv_comment f /\ uv_annos g = uv_annos f
               /\ spec_back (uv_spec f) (uv_spec g)) vars vars' ->
    spec_back (mkTS t p vs mns mxs fs els mn mx it k vars u w r) (mkTS t p vs' mns mxs fs' els mn' mx' it k vars' u w r).
Definition field_back (f g : fielddef) : Prop :=
  fd_name g = fd_name f /\ fd_comment g = fd_comment f /\ fd_annos g = fd_annos f /\ fd_required g = fd_required f
  /\ value_back (fd_default f) (fd_default g) /\ spec_back (fd_spec f) (fd_spec g).
Definition td_back (a b : typedef) : Prop :=
  td_name b = td_name a /\ td_comment b = td_comment a /\ td_annos b = td_annos a /\ spec_back (td_spec a) (td_spec b).
Definition example_back (a b : exampledef) : Prop :=
  ex_target b = ex_target a /\ ex_name b = ex_name a /\ ex_comment b = ex_comment a /\ ex_annos b = ex_annos a
  /\ value_back (ex_example a) (ex_example b).
Definition output_back (a b : opoutput) : Prop :=
  oo_name b = oo_name a /\ oo_comment b = oo_comment a /\ oo_annos b = oo_annos a /\ spec_back (oo_spec a) (oo_spec b).
Definition op_back (a b : opdef) : Prop :=
  op_name b = op_name a /\ op_comment b = op_comment a /\ op_annos b = op_annos a /\ op_exceptions b = op_exceptions a
  /\ Forall2 field_back (op_inputs a) (op_inputs b) /\ Forall2 output_back (op_outputs a) (op_outputs b).
Definition param_back (a b : paramspec) : Prop :=
  ps_header b = ps_header a /\ ps_query b = ps_query a /\ ps_path b = ps_path a /\ field_back (ps_field a) (ps_field b).
Definition expected_back (a b : expectedspec) : Prop :=
  xp_status b = xp_status a /\ xp_comment b = xp_comment a /\ xp_annos b = xp_annos a
  /\ Forall2 param_back (xp_outputs a) (xp_outputs b).
Definition http_back (a b : httpdef) : Prop :=
  h_name b = h_name a /\ h_resource b = h_resource a /\ h_comment b = h_comment a /\ h_annos b = h_annos a
  /\ h_method b = h_method a /\ h_path b = h_path a /\ h_exceptions b = h_exceptions a
  /\ Forall2 param_back (h_inputs a) (h_inputs b)
  /\ match h_expected a, h_expected b with
     | None, None => True
     | Some e, Some e' => expected_back e e'
     | _, _ => False
     end.
Definition schema_back (a b : schema) : Prop :=
  sc_sadl b = sc_sadl a /\ sc_name b = sc_name a /\ sc_namespace b = sc_namespace a /\ sc_version b = sc_version a
  /\ sc_comment b = sc_comment a /\ sc_base b = sc_base a /\ sc_annos b = sc_annos a
  /\ Forall2 td_back (sc_types a) (sc_types b) /\ Forall2 example_back (sc_examples a) (sc_examples b)
  /\ Forall2 op_back (sc_operations a) (sc_operations b) /\ Forall2 http_back (sc_http a) (sc_http b).
End Back.

(** ** Go integers: sizes are int64, statuses int32 *)
Definition size_fits (o : option Z) : Prop := forall z, o = Some z -> (- 2 ^ 63 <= z < 2 ^ 63)%Z.
Definition status_fits (z : Z) : Prop := (- 2 ^ 31 <= z < 2 ^ 31)%Z.
Inductive spec_fits : typespec -> Prop :=
| sf ts : size_fits (ts_minsize ts) -> size_fits (ts_maxsize ts) ->
    (forall f : fielddef, In f (ts_fields ts) -> spec_fits (fd_spec f)) ->
    (forall v : variantdef, In v (ts_variants ts) -> spec_fits (uv_spec v)) -> spec_fits ts.
Definition schema_fits (s : schema) : Prop :=
  (forall td, In td (sc_types s) -> spec_fits (td_spec td))
  /\ (forall o, In o (sc_operations s) -> (forall f : fielddef, In f (op_inputs o) -> spec_fits (fd_spec f))
        /\ forall x, In x (op_outputs o) -> spec_fits (oo_spec x))
  /\ (forall h, In h (sc_http s) ->
        (forall p, In p (h_inputs h) -> spec_fits (fd_spec (ps_field p)))
        /\ (forall e, h_expected h = Some e -> status_fits (xp_status e) /\ forall p, In p (xp_outputs e) -> spec_fits (fd_spec (ps_field p)))
        /\ forall x, In x (h_exceptions h) -> status_fits (xc_status x)).

(** ** Types that mean the same afterwards *)
(** no empty list of values, bounds that are read as they are written *)
Inductive spec_kept (num : decimal -> decimal) : typespec -> Prop :=
| sk ts : ts_values ts <> Some [] -> (forall d, ts_min ts = Some d \/ ts_max ts = Some d -> num d = d) ->
    (forall f : fielddef, In f (ts_fields ts) -> spec_kept num (fd_spec f)) -> spec_kept num ts.
(** values that are read as values of the same kind, *string as string *)
Inductive value_kept : value -> Prop :=
| vk_nil : value_kept VNil
| vk_bool b : value_kept (VBool b)
| vk_pbool b : value_kept (VPBool b)
| vk_str s : value_kept (VStr s)
| vk_pstr s : value_kept (VPStr s)
| vk_arr l : Forall value_kept l -> value_kept (VArr l)
| vk_map l : Forall (fun kv => value_kept (snd kv)) l -> value_kept (VMap l).

(** ** Schemas that come back as they are *)
(** no empty list of values, numbers that can be written, no default *)
Inductive spec_plain (num : decimal -> decimal) : typespec -> Prop :=
| spl ts : ts_values ts <> Some [] ->
    (forall d, ts_min ts = Some d \/ ts_max ts = Some d -> number d /\ num d = d) ->
    (forall f : fielddef, In f (ts_fields ts) -> fd_default f = VNil /\ spec_plain num (fd_spec f)) ->
    (forall v : variantdef, In v (ts_variants ts) -> spec_plain num (uv_spec v)) -> spec_plain num ts.
Definition field_plain (num : decimal -> decimal) (f : fielddef) : Prop := fd_default f = VNil /\ spec_plain num (fd_spec f).
Definition schema_plain (num : decimal -> decimal) (s : schema) : Prop :=
  sc_sadl s <> "" /\ sc_examples s = []
  /\ (forall td, In td (sc_types s) -> spec_plain num (td_spec td))
  /\ (forall o, In o (sc_operations s) -> (forall f, In f (op_inputs o) -> field_plain num f) /\ forall x, In x (op_outputs o) -> spec_plain num (oo_spec x))
  /\ (forall h, In h (sc_http s) ->
        (forall p, In p (h_inputs h) -> field_plain num (ps_field p))
        /\ (forall e p, h_expected h = Some e -> In p (xp_outputs e) -> field_plain num (ps_field p))).
