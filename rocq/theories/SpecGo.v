(** What a generated Go file of types declares, and the JSON that Go reads and writes with it. *)
From Verif Require Import GoStr Value Schema Scalars SpecTime SpecMisc SpecModel SpecPV SpecTrace.

(** ** Go types *)
Inductive gotype :=
| GBool | GString
| GInt (bits : Z) | GFloat (bits : Z)
| GNamed (n : string)                 (* a type of the package *)
| GLib (n : string)                   (* a type of the package sadl *)
| GPtr (t : gotype) | GSlice (t : gotype) | GMap (k t : gotype).
Definition bits_text (b : Z) : string :=
  if (b =? 8)%Z then "8" else if (b =? 16)%Z then "16" else if (b =? 32)%Z then "32" else "64".
Fixpoint type_text (t : gotype) : string :=
  match t with
  | GBool => "bool" | GString => "string"
  | GInt b => "int" +++ bits_text b | GFloat b => "float" +++ bits_text b
  | GNamed n => n
  | GLib n => "sadl." +++ n
  | GPtr t => "*" +++ type_text t
  | GSlice t => "[]" +++ type_text t
  | GMap k t => "map[" +++ type_text k +++ "]" +++ type_text t
  end.

(** ** Declarations *)
Record gofield := mkGF { gf_name : string; gf_type : gotype; gf_json : string; gf_omit : bool }.
Inductive godecl :=
| GdInterface (n : string) (methods : list string)
| GdNote (n : string)                                     (* a comment with the name of a type *)
| GdStruct (n : string) (fields : list gofield)
| GdUnion (n : string) (tags : list string) (fields : list gofield)
| GdEnum (n : string) (elements : list (string * string)) (* symbol and text *)
| GdType (n : string) (t : gotype) (uuid : bool)
| GdNumber (n : string) (t : gotype)                      (* with a conversion from strings *)
| GdError (n : string)                                    (* the method Error *)
| GdTimestamp | GdDecimal.                                (* the types Timestamp and Decimal with their methods *)

Definition each {A} (f : A -> string) (l : list A) : string := fold_right (fun x acc => f x +++ acc) "" l.
Definition line (s : string) : string := s +++ newline.
Definition indent : string := String "009" EmptyString.
Definition field_text (f : gofield) : string :=
  line ("    " +++ gf_name f +++ " " +++ type_text (gf_type f) +++ " `json:""" +++ gf_json f
        +++ (if gf_omit f then ",omitempty" else "") +++ """`").
Definition method_text (n : string) : string := line ("    " +++ n +++ "(req *" +++ n +++ "Request) (*" +++ n +++ "Response, error)").
Section Text.
Context (timestamp_text decimal_text : string).
Definition decl_text (d : godecl) : string :=
  match d with
  | GdInterface n ms =>
      line "" +++ line "//" +++ line ("// " +++ n +++ " is the interface that the service implementation must conform to") +++ line "//"
      +++ line ("type " +++ n +++ " interface {") +++ each method_text ms +++ line "}" +++ line ""
  | GdNote n => line "" +++ line "//" +++ line ("// " +++ n) +++ line "//"
  | GdStruct n fs => line ("type " +++ n +++ " struct {") +++ each field_text fs +++ line "}" +++ line ""
  | GdUnion n tags fs =>
      let tag := n +++ "VariantTag" in
      line ("type " +++ tag +++ " int") +++ line "const (" +++ line ("    _ " +++ tag +++ " = iota")
      +++ each (fun t => line ("    " +++ tag +++ t)) tags +++ line ")" +++ line ""
      +++ line ("type " +++ n +++ " struct {") +++ line ("    Variant " +++ tag +++ " `json:""-""`") +++ each field_text fs +++ line "}" +++ line ""
  | GdEnum n es =>
      line ("type " +++ n +++ " int") +++ line "" +++ line "const (" +++ line ("    _ " +++ n +++ " = iota")
      +++ each (fun e => line ("    " +++ fst e)) es +++ line ")" +++ line ""
      +++ line ("var names" +++ n +++ " = []string{") +++ each (fun e => line ("    " +++ fst e +++ ": """ +++ snd e +++ """,")) es +++ line "}" +++ line ""
      +++ line ("func (e " +++ n +++ ") String() string {") +++ line ("    return names" +++ n +++ "[e]") +++ line "}" +++ line ""
      +++ line ("func (e " +++ n +++ ") MarshalJSON() ([]byte, error) {") +++ line "    return json.Marshal(e.String())" +++ line "}" +++ line ""
      +++ line ("func (e *" +++ n +++ ") UnmarshalJSON(b []byte) error {") +++ line "    var s string"
      +++ line "    err := json.Unmarshal(b, &s)" +++ line "    if err == nil {"
      +++ line ("        for v, s2 := range names" +++ n +++ " {") +++ line "            if s == s2 {"
      +++ line ("                *e = " +++ n +++ "(v)") +++ line "                return nil" +++ line "             }" +++ line "        }"
      +++ line ("        err = fmt.Errorf(""Bad enum symbol for type " +++ n +++ ": %s"", s)") +++ line "    }" +++ line "    return err" +++ line "}"
  | GdType n t uuid => line ("type " +++ n +++ " " +++ type_text t +++ (if uuid then " //UUID" else ""))
  | GdNumber n t =>
      line ("type " +++ n +++ " " +++ type_text t) +++ line ("func " +++ n +++ "FromString(s string) " +++ n +++ "{")
      +++ line (indent +++ "n, err := strconv.ParseInt(s, 10, 64)") +++ line (indent +++ "if err != nil {")
      +++ line (indent +++ indent +++ "return 0") +++ line (indent +++ "}") +++ line (indent +++ "return n") +++ line "}"
  | GdError n => line ("func (e *" +++ n +++ ") Error() string {") +++ line (indent +++ "return """ +++ n +++ """") +++ line "}" +++ line ""
  | GdTimestamp => timestamp_text
  | GdDecimal => decimal_text
  end.
Definition imports_text (ps : list string) : string :=
  match ps with
  | [] => ""
  | _ => line "" +++ line "import(" +++ each (fun p => line (indent +++ """" +++ p +++ """")) ps +++ line ")"
  end.
Definition file_text (pkg : string) (imports : list string) (ds : list godecl) : string :=
  line "//" +++ line "// Generated by sadl" +++ line "//" +++ line ("package " +++ pkg) +++ imports_text imports +++ each decl_text ds.
End Text.

(** ** The declarations of a model *)
Definition go_basic : list (string * gotype) :=
  [("Bool", GBool); ("String", GString); ("Int8", GInt 8); ("Int16", GInt 16); ("Int32", GInt 32); ("Int64", GInt 64);
   ("Float32", GFloat 32); ("Float64", GFloat 64)].
Definition go_library : list string := ["Decimal"; "Timestamp"; "UnitValue"].
Definition plain_use (n : string) : Prop :=
  ~ In n (map fst go_basic) /\ ~ In n go_library /\ n <> "Array" /\ n <> "Map".
(** the Go type of a use of the type [n]; [ts] says what an array or a map is made of *)
Inductive go_use (sch : schema) (runtime : bool) : typespec -> string -> gotype -> Prop :=
| gu_basic ts n t : In (n, t) go_basic -> go_use sch runtime ts n t
| gu_library ts n : In n go_library -> go_use sch runtime ts n (GPtr (if runtime then GLib n else GNamed n))
| gu_array ts ti t : defines sch (ts_items ts) ti -> go_use sch runtime ti (ts_items ts) t -> go_use sch runtime ts "Array" (GSlice t)
| gu_map ts tk k ti t : defines sch (ts_keys ts) tk -> go_use sch runtime tk (ts_keys ts) k ->
    defines sch (ts_items ts) ti -> go_use sch runtime ti (ts_items ts) t -> go_use sch runtime ts "Map" (GMap k t)
| gu_struct ts n td : plain_use n -> defines sch n td -> ts_type td = "Struct" -> go_use sch runtime ts n (GPtr (GNamed n))
| gu_other ts n td : plain_use n -> defines sch n td -> ts_type td <> "Struct" -> go_use sch runtime ts n (GNamed n).

Section Decls.
Context (sch : schema) (runtime : bool).
Definition field_shown (name : string) (omit : bool) (ts : typespec) (f : gofield) : Prop :=
  name <> "" /\ large_first name (gf_name f) /\ go_use sch runtime ts (ts_type ts) (gf_type f) /\ gf_json f = name /\ gf_omit f = omit.
Definition fields_shown (fs : list fielddef) (gs : list gofield) : Prop :=
  Forall2 (fun fd g => field_shown (fd_name fd) (negb (fd_required fd)) (fd_spec fd) g) fs gs.
Definition variants_shown (vs : list variantdef) (gs : list gofield) : Prop :=
  Forall2 (fun v g => field_shown (uv_name v) true (uv_spec v) g) vs gs.
(** the text of an enum symbol: its annotation x_enumValue, true if that has no value, or the symbol *)
Definition symbol_shown (e : enumelt) (st : string * string) : Prop :=
  fst st = ee_symbol e
  /\ ((exists a b v, ee_annos e = a ++ ("x_enumValue", v) :: b /\ ~ In "x_enumValue" (map fst a)
                     /\ ((v <> "" /\ snd st = v) \/ (v = "" /\ snd st = "true")))
      \/ (~ In "x_enumValue" (map fst (ee_annos e)) /\ snd st = ee_symbol e)).
Definition thrown (n : string) : Prop := exists h e, In h (sc_http sch) /\ In e (h_exceptions h) /\ xc_type e = n.
Definition error_method (n : string) (ds : list godecl) : Prop := (thrown n /\ ds = [GdError n]) \/ (~ thrown n /\ ds = []).
Inductive type_shown (td : typedef) : list godecl -> Prop :=
| ty_struct gs es : ts_type (td_spec td) = "Struct" -> fields_shown (ts_fields (td_spec td)) gs -> error_method (td_name td) es ->
    type_shown td (GdNote (td_name td) :: GdStruct (td_name td) gs :: es)
| ty_union tags gs es : ts_type (td_spec td) = "Union" -> Forall2 (fun v t => large_first (uv_name v) t) (ts_variants (td_spec td)) tags ->
    variants_shown (ts_variants (td_spec td)) gs -> error_method (td_name td) es ->
    type_shown td (GdNote (td_name td) :: GdUnion (td_name td) tags gs :: es)
| ty_enum l : ts_type (td_spec td) = "Enum" -> Forall2 symbol_shown (ts_elements (td_spec td)) l ->
    type_shown td [GdNote (td_name td); GdEnum (td_name td) l]
| ty_string : ts_type (td_spec td) = "String" -> type_shown td [GdNote (td_name td); GdType (td_name td) GString false]
| ty_uuid : ts_type (td_spec td) = "UUID" -> type_shown td [GdNote (td_name td); GdType (td_name td) GString true]
| ty_decimal : ts_type (td_spec td) = "Decimal" -> type_shown td [GdNote (td_name td); GdType (td_name td) (GNamed "Decimal") false]
| ty_array t : ts_type (td_spec td) = "Array" -> go_use sch runtime (td_spec td) (ts_items (td_spec td)) t ->
    type_shown td [GdNote (td_name td); GdType (td_name td) (GSlice t) false]
| ty_map k t : ts_type (td_spec td) = "Map" -> go_use sch runtime (td_spec td) (ts_keys (td_spec td)) k ->
    go_use sch runtime (td_spec td) (ts_items (td_spec td)) t ->
    type_shown td [GdNote (td_name td); GdType (td_name td) (GMap k t) false]
| ty_number t : ts_type (td_spec td) <> "Bool" -> ts_type (td_spec td) <> "String" -> In (ts_type (td_spec td), t) go_basic ->
    type_shown td [GdNote (td_name td); GdNumber (td_name td) t].
Inductive action_types (h : httpdef) : list godecl -> Prop :=
| at_both n x qs ps : h_name h <> "" -> large_first (h_name h) n -> h_expected h = Some x ->
    fields_shown (map ps_field (h_inputs h)) qs -> fields_shown (map ps_field (xp_outputs x)) ps ->
    action_types h [GdStruct (n +++ "Request") qs; GdStruct (n +++ "Response") ps].

(** [mentioned n]: the type [n], of the package or of the package sadl, is used in a declaration *)
Fixpoint type_mentions (t : gotype) (x : gotype) : Prop :=
  t = x \/ match t with GPtr u | GSlice u => type_mentions u x | GMap k u => type_mentions k x \/ type_mentions u x | _ => False end.
Definition decl_mentions (d : godecl) (x : gotype) : Prop :=
  match d with
  | GdStruct _ fs | GdUnion _ _ fs => exists f, In f fs /\ type_mentions (gf_type f) x
  | GdType _ t _ => type_mentions t x
  | _ => False
  end.
(** all declarations, in order *)
Definition file_shown (service : string) (ds : list godecl) : Prop :=
  exists ms acts types helpers,
    ds = GdInterface service ms :: concat acts ++ concat types ++ helpers
    /\ Forall2 (fun h n => h_name h <> "" /\ large_first (h_name h) n) (sc_http sch) ms
    /\ Forall2 action_types (sc_http sch) acts
    /\ Forall2 type_shown (sc_types sch) types
    /\ (forall d, In d helpers <-> (d = GdTimestamp /\ (exists e, In e (concat acts ++ concat types) /\ decl_mentions e (GNamed "Timestamp")))
                                   \/ (d = GdDecimal /\ (exists e, In e (concat acts ++ concat types) /\ decl_mentions e (GNamed "Decimal"))))
    /\ NoDup helpers /\ (forall a b, helpers = a ++ GdDecimal :: b -> b = []).
End Decls.

(** ** Imports *)
(** the packages that the text of a declaration refers to *)
Inductive needs : godecl -> string -> Prop :=
| nd_sadl d n : decl_mentions d (GLib n) -> needs d "github.com/boynton/sadl"
| nd_number n t : needs (GdNumber n t) "strconv"
| nd_enum n l p : In p ["encoding/json"; "fmt"] -> needs (GdEnum n l) p
| nd_time p : In p ["encoding/json"; "fmt"; "strings"; "time"] -> needs GdTimestamp p
| nd_decimal p : In p ["encoding/json"; "fmt"; "math/big"] -> needs GdDecimal p.

(** ** When there is no file *)
Definition go_kinds : list string :=
  ["Struct"; "Union"; "Enum"; "String"; "UUID"; "Decimal"; "Array"; "Map"; "Int8"; "Int16"; "Int32"; "Int64"; "Float32"; "Float64"].
Definition no_go_type (sch : schema) (ts : typespec) (n : string) : Prop := forall runtime t, ~ go_use sch runtime ts n t.
Definition bad_member (sch : schema) (n : string) (ts : typespec) : Prop := n = "" \/ no_go_type sch ts (ts_type ts).
Inductive go_fails (sch : schema) : Prop :=
| gx_name h : In h (sc_http sch) -> h_name h = "" -> go_fails sch
| gx_input h p : In h (sc_http sch) -> In p (h_inputs h) -> bad_member sch (fd_name (ps_field p)) (fd_spec (ps_field p)) -> go_fails sch
| gx_expected h : In h (sc_http sch) -> h_expected h = None -> go_fails sch
| gx_output h x p : In h (sc_http sch) -> h_expected h = Some x -> In p (xp_outputs x) ->
    bad_member sch (fd_name (ps_field p)) (fd_spec (ps_field p)) -> go_fails sch
| gx_kind td : In td (sc_types sch) -> ~ In (ts_type (td_spec td)) go_kinds -> go_fails sch
| gx_field td f : In td (sc_types sch) -> ts_type (td_spec td) = "Struct" -> In f (ts_fields (td_spec td)) ->
    bad_member sch (fd_name f) (fd_spec f) -> go_fails sch
| gx_variant td v : In td (sc_types sch) -> ts_type (td_spec td) = "Union" -> In v (ts_variants (td_spec td)) ->
    bad_member sch (uv_name v) (uv_spec v) -> go_fails sch
| gx_items td : In td (sc_types sch) -> In (ts_type (td_spec td)) ["Array"; "Map"] -> no_go_type sch (td_spec td) (ts_items (td_spec td)) -> go_fails sch
| gx_keys td : In td (sc_types sch) -> ts_type (td_spec td) = "Map" -> no_go_type sch (td_spec td) (ts_keys (td_spec td)) -> go_fails sch.

(** ** Names that have a Go type *)
Definition container (n : string) : Prop := n = "Array" \/ n = "Map".
Definition known (sch : schema) (n : string) : Prop := exists ts, defines sch n ts.
Definition plain_part (sch : schema) (n : string) : Prop := known sch n /\ ~ container n.
Definition go_typed (sch : schema) (ts : typespec) (n : string) : Prop :=
  plain_part sch n \/ (n = "Array" /\ plain_part sch (ts_items ts)) \/ (n = "Map" /\ plain_part sch (ts_keys ts) /\ plain_part sch (ts_items ts)).
(** the members of structs, unions, requests and responses *)
Inductive member_of (sch : schema) : string -> typespec -> Prop :=
| mo_field td f : In td (sc_types sch) -> ts_type (td_spec td) = "Struct" -> In f (ts_fields (td_spec td)) -> member_of sch (fd_name f) (fd_spec f)
| mo_variant td v : In td (sc_types sch) -> ts_type (td_spec td) = "Union" -> In v (ts_variants (td_spec td)) -> member_of sch (uv_name v) (uv_spec v)
| mo_input h p : In h (sc_http sch) -> In p (h_inputs h) -> member_of sch (fd_name (ps_field p)) (fd_spec (ps_field p))
| mo_output h x p : In h (sc_http sch) -> h_expected h = Some x -> In p (xp_outputs x) -> member_of sch (fd_name (ps_field p)) (fd_spec (ps_field p)).

(** ** Names of the package *)
Definition timestamp_names : list string := ["Timestamp"; "RFC3339Milli"; "TimestampFromString"; "ParseTimestamp"].
Definition decimal_names : list string := ["DecimalPrecision"; "Decimal"; "DecimalFromString"; "ParseDecimal"; "NewDecimal"].
Definition declared (d : godecl) : list string :=
  match d with
  | GdInterface n _ | GdStruct n _ | GdType n _ _ => [n]
  | GdNote _ | GdError _ => []
  | GdUnion n tags _ => (n +++ "VariantTag") :: map (fun t => (n +++ "VariantTag") +++ t) tags ++ [n]
  | GdEnum n es => n :: map fst es ++ ["names" +++ n]
  | GdNumber n _ => [n; n +++ "FromString"]
  | GdTimestamp => timestamp_names
  | GdDecimal => decimal_names
  end.
(** the names that a type takes in the package; unions left out *)
Definition taken (td : typedef) : list string :=
  let n := td_name td in
  if in_dec string_dec (ts_type (td_spec td)) ["Int8"; "Int16"; "Int32"; "Int64"; "Float32"; "Float64"] then [n; n +++ "FromString"]
  else if string_dec (ts_type (td_spec td)) "Enum" then n :: map ee_symbol (ts_elements (td_spec td)) ++ ["names" +++ n]
  else [n].
Definition undeclared_names : list string := ["Bytes"; "UUID"; "Any"; "UnitValue"; "Enum"; "Struct"; "Union"].
(** [n] names the same Go field as [n'] *)
Definition same_large (n n' : string) : Prop := exists s, large_first n s /\ large_first n' s.
