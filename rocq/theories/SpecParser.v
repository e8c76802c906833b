(** Specifications for reading SADL text. *)
From Verif Require Import GoStr Value Schema Scalars SpecModel SpecMisc SpecPV.
From Verif Require Import Scan.

(** ** Token sequences *)
(** two texts that differ in block comments only *)
Inductive same_but_block_comments : list token -> list token -> Prop :=
| sb_nil : same_but_block_comments [] []
| sb_same t l l' : same_but_block_comments l l' -> same_but_block_comments (t :: l) (t :: l')
| sb_left x l l' : same_but_block_comments l l' -> same_but_block_comments (mkTok BLOCK_COMMENT x :: l) l'
| sb_right x l l' : same_but_block_comments l l' -> same_but_block_comments l (mkTok BLOCK_COMMENT x :: l').

(** any scanner gives its symbols a text *)
Definition symbols_have_text (toks : list token) : Prop := forall s, In (mkTok SYMBOL s) toks -> s <> "".
Definition word_absent (w : string) (toks : list token) : Prop := ~ In (mkTok SYMBOL w) toks.

(** ** What reading can put into a schema *)
(** Constraints only where the language has them. *)
Definition limits_fit (ts : typespec) : Prop :=
  (ts_pattern ts <> "" \/ ts_values ts <> None -> ts_type ts = "String")
  /\ (ts_minsize ts <> None \/ ts_maxsize ts <> None -> In (ts_type ts) ["String"; "Bytes"; "Array"; "List"; "Map"])
  /\ (ts_min ts <> None \/ ts_max ts <> None -> In (ts_type ts) number_kinds)
  /\ (ts_reference ts <> "" -> In (ts_type ts) ["String"; "UUID"]).
(** Parts only where they mean something. *)
Definition parts_fit (ts : typespec) : Prop :=
  (ts_fields ts <> [] -> ts_type ts = "Struct")
  /\ (ts_elements ts <> [] -> ts_type ts = "Enum")
  /\ (ts_variants ts <> [] -> ts_type ts = "Union")
  /\ (ts_items ts <> "" -> In (ts_type ts) ["Array"; "List"; "Map"])
  /\ (ts_keys ts <> "" -> ts_type ts = "Map")
  /\ (ts_value ts <> "" \/ ts_unit ts <> "" -> ts_type ts = "UnitValue").

(** a property of a field and of the fields of inline structs in it *)
Inductive deep (P : fielddef -> Prop) : fielddef -> Prop :=
| deep_i f : P f -> (forall g, In g (ts_fields (fd_spec f)) -> deep P g) -> deep P f.
Definition written_field (f : fielddef) : Prop :=
  fd_name f <> "" /\ vwf (fd_default f) /\ limits_fit (fd_spec f).

(** The one exception: a string type with the pattern of a UUID is read as UUID and keeps the
    other constraints of a string. *)
Definition as_string (ts : typespec) : typespec :=
  mkTS "String" (ts_pattern ts) (ts_values ts) (ts_minsize ts) (ts_maxsize ts) (ts_fields ts) (ts_elements ts)
    (ts_min ts) (ts_max ts) (ts_items ts) (ts_keys ts) (ts_variants ts) (ts_unit ts) (ts_value ts) (ts_reference ts).
Definition written_type (td : typedef) : Prop :=
  let ts := td_spec td in
  td_name td <> ""
  /\ In (ts_type ts) ("List" :: base_types)
  /\ (limits_fit ts \/ (ts_type ts = "UUID" /\ ts_pattern ts = "" /\ limits_fit (as_string ts)))
  /\ parts_fit ts
  /\ (forall f, In f (ts_fields ts) -> deep written_field f).

(** The source of an http parameter as recorded, against the template of the action *)
Definition recorded_source (tmpl : string) (p : paramspec) : Prop :=
  let n := fd_name (ps_field p) in
  (ps_header p <> "" /\ ps_query p = "" /\ ps_path p = false)
  \/ (ps_header p = "" /\ ps_query p = "" /\ ps_path p = true /\ in_path tmpl n)
  \/ (ps_header p = "" /\ ps_path p = false /\ ~ in_path tmpl n /\ in_query tmpl n (ps_query p))
  \/ (ps_header p = "" /\ ps_query p = "" /\ ps_path p = false /\ ~ in_path tmpl n /\ forall k, ~ in_query tmpl n k).
Definition written_param (p : paramspec) : Prop := deep written_field (ps_field p).
(** [expect 200 T] *)
Definition entity_only (p : paramspec) : Prop :=
  ps_header p = "" /\ ps_query p = "" /\ ps_path p = false /\ fd_name (ps_field p) = "entity".
Definition int32 (z : Z) : Prop := (-2147483648 <= z <= 2147483647)%Z.
Definition written_http (h : httpdef) : Prop :=
  In (h_method h) ["POST"; "GET"; "PUT"; "DELETE"; "PATCH"; "HEAD"; "OPTIONS"]
  /\ (forall p, In p (h_inputs h) -> written_param p /\ recorded_source (h_path h) p)
  /\ (forall x, h_expected h = Some x -> int32 (xp_status x) /\
        forall p, In p (xp_outputs x) -> written_param p /\ (recorded_source (h_path h) p \/ entity_only p))
  /\ NoDup (map xc_type (h_exceptions h))
  /\ (forall e, In e (h_exceptions h) -> xc_type e <> "" /\ int32 (xc_status e)).
Definition written_op (o : opdef) : Prop :=
  op_name o <> "" /\ forall f, In f (op_inputs o) -> fd_name f <> "" /\ ts_type (fd_spec f) <> "" /\ fd_default f = VNil.
Definition written_schema (sch : schema) : Prop :=
  (forall td, In td (sc_types sch) -> written_type td)
  /\ (forall h, In h (sc_http sch) -> written_http h)
  /\ (forall o, In o (sc_operations sch) -> written_op o)
  /\ (forall e, In e (sc_examples sch) -> vwf (ex_example e)).
