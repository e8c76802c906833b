(** What reading a GraphQL document should give (C74-C77).  Uses the data types of Graphql.v and GraphqlImport.v, none
    of their functions. *)
From Verif Require Import GoStr Outcome Value Schema SpecModel SpecMisc SpecOpenApi SpecImport SpecGen Graphql GraphqlImport.

(** ** Documents *)
(** the scalars of GraphQL and the types they are *)
Inductive gql_converts : string -> string -> Prop :=
| gc_int : gql_converts "Int" "Int32"
| gc_float : gql_converts "Float" "Float64"
| gc_boolean : gql_converts "Boolean" "Bool"
| gc_other n : ~ In n ["Int"; "Float"; "Boolean"] -> gql_converts n n.
(** the types a field may have: a name, or a list of names, each nullable or not.  A required list of lists is read
    too, as a list of anything that is called Array. *)
Inductive gql_reads_as : gtype -> bool -> string -> string -> Prop :=
| gr_name n t : gql_converts n t -> gql_reads_as (GNamed n) false t ""
| gr_name' n t : gql_converts n t -> gql_reads_as (GNonNull (GNamed n)) true t ""
| gr_list n t : gql_converts n t -> gql_reads_as (GList (GNamed n)) false "Array" t
| gr_list_some n t : gql_converts n t -> gql_reads_as (GList (GNonNull (GNamed n))) false "Array" t
| gr_list' n t : gql_converts n t -> gql_reads_as (GNonNull (GList (GNamed n))) true "Array" t
| gr_list_some' n t : gql_converts n t -> gql_reads_as (GNonNull (GList (GNonNull (GNamed n)))) true "Array" t
| gr_lists t : gql_reads_as (GNonNull (GList (GNonNull (GList t)))) true "Array" "Array".
Definition gql_type_ok (t : gtype) : Prop := exists req n i, gql_reads_as t req n i.

(** the types of the operations are those named by a schema definition further up *)
Definition named_above (pre : list gdefn) (n : string) : Prop := exists ops, In (GSchemaDef ops) pre /\ In n ops.
(** a definition that can be taken up, behind the definitions [pre] *)
Definition gql_def_ok (pre : list gdefn) (d : gdefn) : Prop :=
  match d with
  | GObject n _ fs => named_above pre n \/ forall f, In f fs -> gql_type_ok (gf_type f)
  | GScalar n => n = "Timestamp" \/ n = "UUID"
  | GOther _ => False
  | _ => True
  end.
(** the name of the type that a definition gives *)
Definition gql_makes (pre : list gdefn) (d : gdefn) (n : string) : Prop :=
  match d with
  | GObject n' _ _ => n = n' /\ ~ named_above pre n
  | GEnum n' _ _ | GUnion n' _ _ => n = n'
  | _ => False
  end.
Definition gql_defs_ok (doc : list gdefn) : Prop := forall pre d post, doc = pre ++ d :: post -> gql_def_ok pre d.
Definition gql_names_clear (doc : list gdefn) : Prop :=
  (forall pre d post n, doc = pre ++ d :: post -> gql_makes pre d n -> n <> "ID" /\ ~ In n builtin_names)
  /\ (forall pre d mid d' post n, doc = pre ++ d :: mid ++ d' :: post -> gql_makes pre d n -> gql_makes (pre ++ d :: mid) d' n -> False).
Definition gql_readable (doc : list gdefn) : Prop := gql_defs_ok doc /\ gql_names_clear doc.
(** an object with a field that cannot be read, and nothing wrong above it *)
Definition gql_crashes (doc : list gdefn) : Prop :=
  exists pre n desc fs post, doc = pre ++ GObject n desc fs :: post /\ gql_defs_ok pre /\ ~ gql_def_ok pre (GObject n desc fs).

(** ** What a definition becomes *)
(** the description on one line *)
Definition one_line (s s' : string) : Prop :=
  String.length s' = String.length s
  /\ forall i c, String.get i s = Some c -> String.get i s' = Some (if Ascii.eqb c "010" then " " else c)%char.
Definition describes (d : option string) (c : string) : Prop :=
  match d with None => c = "" | Some s => one_line s c end.
Definition bare (t : string) (fs : list fielddef) (es : list enumelt) (items : string) (vs : list variantdef) : typespec :=
  mkTS t "" None None None fs es None None items "" vs "" "" "".
Inductive gql_becomes : gdefn -> typedef -> Prop :=
| gb_object n desc fs c l : describes desc c ->
    Forall2 (fun f g => exists t i r k, gql_reads_as (gf_type f) r t i /\ describes (gf_desc f) k
      /\ g = mkField (gf_name f) k [] r VNil (bare t [] [] i [])) fs l ->
    gql_becomes (GObject n desc fs) (mkTD n c [] (bare "Struct" l [] "" []))
| gb_enum n desc vs c l : describes desc c ->
    Forall2 (fun v e => ee_symbol e = fst v /\ describes (snd v) (ee_comment e) /\ ee_annos e = []) vs l ->
    gql_becomes (GEnum n desc vs) (mkTD n c [] (bare "Enum" [] l "" []))
| gb_union n desc ms c : describes desc c ->
    gql_becomes (GUnion n desc ms) (mkTD n c [] (bare "Union" [] [] "" (map (fun t => mkVariant t "" [] (ts_of t)) ms))).
(** the definitions of a document that become types, in order *)
Inductive gql_kept : list gdefn -> list gdefn -> list gdefn -> Prop :=
| gk_nil pre : gql_kept pre [] []
| gk_take pre d r l : (exists n, gql_makes pre d n) -> gql_kept (pre ++ [d]) r l -> gql_kept pre (d :: r) (d :: l)
| gk_skip pre d r l : ~ (exists n, gql_makes pre d n) -> gql_kept (pre ++ [d]) r l -> gql_kept pre (d :: r) l.

(** ** A model written and read again *)
(** what a base type comes back as; [conf] names the custom scalars *)
Inductive gql_scalar_back (conf : string -> string) : string -> string -> Prop :=
| sb_bool : gql_scalar_back conf "Bool" "Bool"
| sb_string : gql_scalar_back conf "String" "String"
| sb_int n : In n ["Int8"; "Int16"; "Int32"] -> gql_scalar_back conf n "Int32"
| sb_float n : In n ["Float32"; "Float64"] -> gql_scalar_back conf n "Float64"
| sb_text n : In n ["UUID"; "Timestamp"] -> conf n = "" -> gql_scalar_back conf n "String"
| sb_wide n : In n ["Int64"; "Decimal"] -> conf n = "" -> gql_scalar_back conf n "Float64"
| sb_custom n s : In n ["UUID"; "Timestamp"; "Int64"; "Decimal"] -> conf n <> "" -> gql_converts (conf n) s -> gql_scalar_back conf n s.
(** what a field comes back as: a base type, a list, a name; an alias of a base type is the base type, an alias of a
    list the list *)
Inductive gql_field_back (conf : string -> string) (sch : schema) (ts : typespec) : typespec -> Prop :=
| fb_scalar s : gql_scalar_back conf (ts_type ts) s -> gql_field_back conf sch ts (bare s [] [] "" [])
| fb_list i : ts_type ts = "Array" -> gql_converts (ts_items ts) i -> gql_field_back conf sch ts (bare "Array" [] [] i [])
| fb_list_alias td i : In td (sc_types sch) -> td_name td = ts_type ts -> ts_type (td_spec td) = "Array" -> gql_converts (ts_items (td_spec td)) i ->
    gql_field_back conf sch ts (bare "Array" [] [] i [])
| fb_scalar_alias td s : In td (sc_types sch) -> td_name td = ts_type ts -> gql_scalar_back conf (ts_type (td_spec td)) s ->
    gql_field_back conf sch ts (bare s [] [] "" [])
| fb_name s : ~ In (ts_type ts) ("Array" :: gql_scalars) ->
    (forall td, In td (sc_types sch) -> td_name td = ts_type ts -> ~ In (ts_type (td_spec td)) ("Array" :: gql_scalars)) ->
    gql_converts (ts_type ts) s -> gql_field_back conf sch ts (bare s [] [] "" []).
Inductive gql_back (conf : string -> string) (sch : schema) (td : typedef) : typedef -> Prop :=
| bk_enum : ts_type (td_spec td) = "Enum" ->
    gql_back conf sch td (mkTD (td_name td) "" [] (bare "Enum" [] (map (fun e => mkElt (ee_symbol e) "" []) (ts_elements (td_spec td))) "" []))
| bk_union : ts_type (td_spec td) = "Union" ->
    gql_back conf sch td (mkTD (td_name td) "" [] (bare "Union" [] [] "" (map (fun v => mkVariant (ts_type (uv_spec v)) "" [] (ts_of (ts_type (uv_spec v)))) (ts_variants (td_spec td)))))
| bk_struct l : ts_type (td_spec td) = "Struct" ->
    Forall2 (fun f g => exists ts, gql_field_back conf sch (fd_spec f) ts /\ g = mkField (fd_name f) "" [] (fd_required f) VNil ts) (ts_fields (td_spec td)) l ->
    gql_back conf sch td (mkTD (td_name td) "" [] (bare "Struct" l [] "" [])).
(** the types of a model that are defined in the document, in order *)
Inductive gql_defined : list typedef -> list typedef -> Prop :=
| gd_nil : gql_defined [] []
| gd_take td r l : In (ts_type (td_spec td)) gql_kinds -> gql_defined r l -> gql_defined (td :: r) (td :: l)
| gd_skip td r l : ~ In (ts_type (td_spec td)) gql_kinds -> gql_defined r l -> gql_defined (td :: r) l.
(** the custom scalars that the model needs, all of them readable *)
Definition gql_scalars_ok (conf : string -> string) : Prop :=
  forall n, In n ["UUID"; "Timestamp"; "Int64"; "Decimal"] -> conf n = "" \/ conf n = "UUID" \/ conf n = "Timestamp".

(** ** Data *)
Section Data.
Context (conf : string -> string) (sch : schema) (K : string -> Prop).
(** base types without limits of their own, with a scalar that is read as the same *)
Inductive gql_plain (ts : typespec) : Prop :=
| gp_bool : ts_type ts = "Bool" -> gql_plain ts
| gp_string : ts_type ts = "String" -> ts_pattern ts = "" -> ts_values ts = None -> no_sizes ts -> gql_plain ts
| gp_number : In (ts_type ts) number_kinds -> (In (ts_type ts) ["Int64"; "Decimal"] -> conf (ts_type ts) = "") -> ts_min ts = None -> ts_max ts = None -> gql_plain ts
| gp_custom : In (ts_type ts) ["UUID"; "Timestamp"] -> conf (ts_type ts) = ts_type ts -> gql_plain ts
| gp_list : ts_type ts = "Array" -> no_sizes ts ->
    (In (ts_items ts) (["Bool"; "Timestamp"; "Any"; "String"; "Bytes"] ++ number_kinds) \/ K (ts_items ts)) -> gql_plain ts.
Inductive gql_data_field (ts : typespec) : Prop :=
| gf_plain : gql_plain ts -> gql_data_field ts
| gf_open : In (ts_type ts) ["Any"; "Bytes"] -> gql_data_field ts
| gf_alias td : In td (sc_types sch) -> td_name td = ts_type ts -> gql_plain (td_spec td) -> gql_data_field ts
| gf_named : K (ts_type ts) -> gql_data_field ts.
Inductive gql_data (ts : typespec) : Prop :=
| gt_plain : In (ts_type ts) ["Enum"; "Union"] -> gql_data ts
| gt_struct : ts_type ts = "Struct" -> (forall f, In f (ts_fields ts) -> gql_data_field (fd_spec f)) -> gql_data ts.
Definition gql_data_types : Prop :=
  forall n, K n -> ~ In n ["Int"; "Float"; "Boolean"] /\ exists td, In td (sc_types sch) /\ td_name td = n /\ gql_data (td_spec td).
End Data.
