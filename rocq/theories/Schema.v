(** The records of schema.go.  A Go map of annotations is an association list ([nil] and
    empty are not distinguished); a nil slice and an empty slice are distinguished only
    for [Values], the one place where the code tests it ([td.Values != nil]). *)
From Verif Require Import GoStr Value.

Definition annos := list (string * string).

(** schema.go:3-23 *)
Definition base_types : list string :=
  [ "Bool"; "Int8"; "Int16"; "Int32"; "Int64"; "Float32"; "Float64"; "Decimal"; "Bytes";
    "String"; "Timestamp"; "UnitValue"; "UUID"; "Array"; "Map"; "Struct"; "Enum"; "Union"; "Any" ].

(** schema.go:64-68 *)
Record enumelt := mkElt { ee_symbol : string; ee_comment : string; ee_annos : annos }.

(** schema.go:70-77, with the embedded TypeSpec as a field *)
Record fielddef_ (T : Type) := mkField {
  fd_name : string; fd_comment : string; fd_annos : annos;
  fd_required : bool; fd_default : value; fd_spec : T }.
Arguments mkField {T}. Arguments fd_name {T}. Arguments fd_comment {T}. Arguments fd_annos {T}.
Arguments fd_required {T}. Arguments fd_default {T}. Arguments fd_spec {T}.

(** schema.go:79-84 *)
Record variant_ (T : Type) := mkVariant {
  uv_name : string; uv_comment : string; uv_annos : annos; uv_spec : T }.
Arguments mkVariant {T}. Arguments uv_name {T}. Arguments uv_comment {T}.
Arguments uv_annos {T}. Arguments uv_spec {T}.

(** schema.go:39-55 *)
Inductive typespec := mkTS {
  ts_type : string;
  ts_pattern : string;
  ts_values : option (list string);
  ts_minsize : option Z;
  ts_maxsize : option Z;
  ts_fields : list (fielddef_ typespec);
  ts_elements : list enumelt;
  ts_min : option decimal;
  ts_max : option decimal;
  ts_items : string;
  ts_keys : string;
  ts_variants : list (variant_ typespec);
  ts_unit : string;
  ts_value : string;
  ts_reference : string }.

Notation fielddef := (fielddef_ typespec).
Notation variantdef := (variant_ typespec).

(** [TypeSpec{Type: t}] *)
Definition ts_of (t : string) : typespec :=
  mkTS t "" None None None [] [] None None "" "" [] "" "" "".

(** schema.go:57-62 *)
Record typedef := mkTD { td_name : string; td_comment : string; td_annos : annos; td_spec : typespec }.

(** schema.go:86-92 *)
Record exampledef := mkEx {
  ex_target : string; ex_name : string; ex_example : value; ex_comment : string; ex_annos : annos }.

(** schema.go:107-112 *)
Record opoutput := mkOut { oo_name : string; oo_comment : string; oo_annos : annos; oo_spec : typespec }.

(** schema.go:94-101 (an OperationInput is a StructFieldDef, 103-105) *)
Record opdef := mkOp {
  op_name : string; op_comment : string; op_annos : annos;
  op_inputs : list fielddef; op_outputs : list opoutput; op_exceptions : list string }.

(** schema.go:126-131 *)
Record paramspec := mkParam { ps_header : string; ps_query : string; ps_path : bool; ps_field : fielddef }.

(** schema.go:133-138 *)
Record expectedspec := mkExp {
  xp_outputs : list paramspec; xp_status : Z; xp_comment : string; xp_annos : annos }.

(** schema.go:140-145 *)
Record exceptionspec := mkExc { xc_type : string; xc_status : Z; xc_comment : string; xc_annos : annos }.

(** schema.go:114-124 *)
Record httpdef := mkHttp {
  h_name : string; h_resource : string; h_comment : string; h_annos : annos;
  h_method : string; h_path : string;
  h_inputs : list paramspec; h_expected : option expectedspec; h_exceptions : list exceptionspec }.

(** schema.go:25-37 *)
Record schema := mkSchema {
  sc_sadl : string; sc_name : string; sc_namespace : string; sc_version : string; sc_comment : string;
  sc_types : list typedef; sc_examples : list exampledef; sc_operations : list opdef;
  sc_http : list httpdef; sc_base : string; sc_annos : annos }.

Definition schema_of (types : list typedef) (http : list httpdef) : schema :=
  mkSchema "" "" "" "" "" types [] [] http "" [].

(** Induction on type specs that reaches field and variant specs. *)
Section typespec_ind'.
  Variable P : typespec -> Prop.
  Hypothesis H : forall ts,
    Forall (fun f => P (fd_spec f)) (ts_fields ts) ->
    Forall (fun v => P (uv_spec v)) (ts_variants ts) -> P ts.
  Fixpoint typespec_ind' (ts : typespec) : P ts :=
    match ts with
    | mkTS a b c d e fs g h i j k vs l m n =>
        H (mkTS a b c d e fs g h i j k vs l m n)
          ((fix go (l : list fielddef) : Forall (fun f => P (fd_spec f)) l :=
              match l with
              | [] => Forall_nil _
              | mkField n c a r d s :: q =>
                  @Forall_cons _ (fun f => P (fd_spec f)) (mkField n c a r d s) q (typespec_ind' s) (go q)
              end) fs)
          ((fix go (l : list variantdef) : Forall (fun f => P (uv_spec f)) l :=
              match l with
              | [] => Forall_nil _
              | mkVariant n c a s :: q =>
                  @Forall_cons _ (fun f => P (uv_spec f)) (mkVariant n c a s) q (typespec_ind' s) (go q)
              end) vs)
    end.
End typespec_ind'.
