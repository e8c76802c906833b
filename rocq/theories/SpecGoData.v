(** What encoding/json reads and writes with the types of a generated Go file.  JSON texts are given by their values: strings
    are [VStr], numbers [VDec].  Objects have no key twice; a key that equals a field's JSON name in all but case is not
    described, nor is an integer written with a fraction or an exponent (Go refuses it for integers), nor how a type that is
    declared as Decimal is written. *)
From Verif Require Import GoStr Value Schema Scalars SpecTime SpecMisc SpecModel SpecPV SpecTrace SpecGo.
From Coq Require Import Permutation.

Inductive goval :=
| KBool (b : bool) | KStr (s : string) | KInt (z : Z) | KFloat (d : decimal) | KDec (d : decimal) | KTime (t : timestamp)
| KNil | KPtr (v : goval) | KSlice (l : list goval) | KMap (l : list (string * goval)) | KRec (l : list goval) | KEnum (i : nat).

Definition same_number (a b : decimal) : Prop := dec_le a b /\ dec_le b a.
Definition int_fits (bits z : Z) : Prop := (- 2 ^ (bits - 1) <= z < 2 ^ (bits - 1))%Z.
(** a field that encoding/json sees, and a JSON name that it takes from the tag *)
Definition exported (n : string) : Prop := exists c r, n = String c r /\ upper_letter c.
Definition tag_ok (n : string) : Prop := n <> "" /\ forall c, has_char c n -> letter c \/ digit c \/ c = "_"%char.
Definition tags_ok (fs : list gofield) : Prop := NoDup (map gf_json fs) /\ forall f, In f fs -> tag_ok (gf_json f).
Definition first_at (s : string) (l : list string) (i : nat) : Prop := nth_error l i = Some s /\ forall k, k < i -> nth_error l k <> Some s.

Section GoJson.
Context (ds : list godecl).                 (* the declarations of the package *)
Context (round : Z -> decimal -> decimal).  (* the nearest float of 32 or 64 bits *)
Context (big : decimal -> decimal).         (* the nearest big.Float of 250 bits *)
Context (dec_text : decimal -> string) (dec_read : string -> option decimal).
Context (time_read : string -> option timestamp) (time_write : timestamp -> string).

(** *** The zero value *)
Inductive zero : gotype -> goval -> Prop :=
| ze_bool : zero GBool (KBool false)
| ze_string : zero GString (KStr "")
| ze_int b : zero (GInt b) (KInt 0)
| ze_float b : zero (GFloat b) (KFloat (DFin 0 0))
| ze_ptr t : zero (GPtr t) KNil
| ze_slice t : zero (GSlice t) KNil
| ze_map k t : zero (GMap k t) KNil
| ze_struct n fs vs : In (GdStruct n fs) ds -> Forall2 (fun f v => zero (gf_type f) v) fs vs -> zero (GNamed n) (KRec vs)
| ze_union n ts fs vs : In (GdUnion n ts fs) ds -> Forall2 (fun f v => zero (gf_type f) v) fs vs -> zero (GNamed n) (KRec vs)
| ze_enum n es : In (GdEnum n es) ds -> zero (GNamed n) (KEnum 0)
| ze_type n t u v : In (GdType n t u) ds -> zero t v -> zero (GNamed n) v
| ze_number n t v : In (GdNumber n t) ds -> zero t v -> zero (GNamed n) v
| ze_decimal : In GdDecimal ds -> zero (GNamed "Decimal") (KDec (DFin 0 0)).

(** *** Reading *)
Definition string_kind (k : gotype) : Prop := k = GString \/ exists n u, k = GNamed n /\ In (GdType n GString u) ds.
Definition null_keeps (t : gotype) : Prop :=
  match t with
  | GBool | GString | GInt _ | GFloat _ => True
  | GNamed n => exists d, In d ds /\ (match d with GdStruct k _ | GdUnion k _ _ => k = n | _ => False end)
  | _ => False
  end.
Inductive reads : gotype -> value -> goval -> Prop :=
| rd_null t v : null_keeps t -> zero t v -> reads t VNil v
| rd_bool b : reads GBool (VBool b) (KBool b)
| rd_string s : reads GString (VStr s) (KStr s)
| rd_int bits d z : same_number d (DFin z 0) -> int_fits bits z -> reads (GInt bits) (VDec d) (KInt z)
| rd_float bits d : reads (GFloat bits) (VDec d) (KFloat (round bits d))
| rd_nil_ptr t : reads (GPtr t) VNil KNil
| rd_ptr t j v : j <> VNil -> reads t j v -> reads (GPtr t) j (KPtr v)
| rd_nil_slice t : reads (GSlice t) VNil KNil
| rd_slice t l vs : Forall2 (fun j v => reads t j v) l vs -> reads (GSlice t) (VArr l) (KSlice vs)
| rd_nil_map k t : reads (GMap k t) VNil KNil
| rd_map k t l vs : string_kind k -> Forall2 (fun (j : string * value) (v : string * goval) => fst j = fst v /\ reads t (snd j) (snd v)) l vs ->
    reads (GMap k t) (VMap l) (KMap vs)
| rd_struct n fs l vs : In (GdStruct n fs) ds -> tags_ok fs ->
    Forall2 (fun f v => (exported (gf_name f) /\ exists x, In (gf_json f, x) l /\ reads (gf_type f) x v)
                        \/ ((~ exported (gf_name f) \/ ~ In (gf_json f) (map fst l)) /\ zero (gf_type f) v)) fs vs ->
    reads (GNamed n) (VMap l) (KRec vs)
| rd_union n tags fs l vs : In (GdUnion n tags fs) ds -> tags_ok fs ->
    Forall2 (fun f v => (exported (gf_name f) /\ exists x, In (gf_json f, x) l /\ reads (gf_type f) x v)
                        \/ ((~ exported (gf_name f) \/ ~ In (gf_json f) (map fst l)) /\ zero (gf_type f) v)) fs vs ->
    reads (GNamed n) (VMap l) (KRec vs)
| rd_enum_null n es : In (GdEnum n es) ds -> reads (GNamed n) VNil (KEnum 0)
| rd_enum n es s i : In (GdEnum n es) ds -> first_at s ("" :: map snd es) i -> reads (GNamed n) (VStr s) (KEnum i)
| rd_type n t u j v : In (GdType n t u) ds -> t <> GNamed "Decimal" -> reads t j v -> reads (GNamed n) j v
| rd_number n t j v : In (GdNumber n t) ds -> reads t j v -> reads (GNamed n) j v
| rd_named_decimal n s d : In (GdType n (GNamed "Decimal") false) ds -> dec_read s = Some d ->     (* big.Float reads texts, the methods of Decimal are lost *)
    reads (GNamed n) (VStr s) (KDec d)
| rd_decimal d : In GdDecimal ds -> reads (GNamed "Decimal") (VDec d) (KDec (round 64 d))
| rd_decimal_text s d : In GdDecimal ds -> dec_read s = Some d -> reads (GNamed "Decimal") (VStr s) (KDec d)
| rd_lib_decimal d : reads (GLib "Decimal") (VDec d) (KDec (big d))
| rd_time s t : In GdTimestamp ds -> time_read s = Some t -> reads (GNamed "Timestamp") (VStr s) (KTime t)
| rd_lib_time s t : time_read s = Some t -> reads (GLib "Timestamp") (VStr s) (KTime t).

(** *** Writing *)
Definition empty_value (v : goval) : Prop :=
  match v with
  | KBool b => b = false
  | KStr s => s = ""
  | KInt z => z = 0%Z
  | KFloat d => same_number d (DFin 0 0)
  | KNil => True
  | KSlice l => l = []
  | KMap l => l = []
  | KEnum i => i = 0
  | _ => False
  end.
Definition left_out (f : gofield) (v : goval) : Prop := ~ exported (gf_name f) \/ (gf_omit f = true /\ empty_value v).
Inductive writes : gotype -> goval -> value -> Prop :=
| wt_bool b : writes GBool (KBool b) (VBool b)
| wt_string s : writes GString (KStr s) (VStr s)
| wt_int bits z : writes (GInt bits) (KInt z) (VDec (DFin z 0))
| wt_float bits d : writes (GFloat bits) (KFloat d) (VDec d)
| wt_nil t : writes t KNil VNil
| wt_ptr t v j : writes t v j -> writes (GPtr t) (KPtr v) j
| wt_slice t vs l : Forall2 (fun v j => writes t v j) vs l -> writes (GSlice t) (KSlice vs) (VArr l)
| wt_map k t vs l l' : Forall2 (fun (v : string * goval) (j : string * value) => fst v = fst j /\ writes t (snd v) (snd j)) vs l ->
    Permutation l l' -> writes (GMap k t) (KMap vs) (VMap l')
| wt_struct n fs vs l : In (GdStruct n fs) ds -> fields_write fs vs l -> writes (GNamed n) (KRec vs) (VMap l)
| wt_union n tags fs vs l : In (GdUnion n tags fs) ds -> fields_write fs vs l -> writes (GNamed n) (KRec vs) (VMap l)
| wt_enum n es i s : In (GdEnum n es) ds -> nth_error ("" :: map snd es) i = Some s -> writes (GNamed n) (KEnum i) (VStr s)
| wt_type n t u v j : In (GdType n t u) ds -> t <> GNamed "Decimal" -> writes t v j -> writes (GNamed n) v j
| wt_number n t v j : In (GdNumber n t) ds -> writes t v j -> writes (GNamed n) v j
| wt_decimal d : In GdDecimal ds -> writes (GNamed "Decimal") (KDec d) (VStr (dec_text d))
| wt_lib_decimal d : writes (GLib "Decimal") (KDec d) (VDec d)
| wt_time t : In GdTimestamp ds -> writes (GNamed "Timestamp") (KTime t) (VStr (time_write t))
| wt_lib_time t : writes (GLib "Timestamp") (KTime t) (VStr (time_write t))
with fields_write : list gofield -> list goval -> list (string * value) -> Prop :=
| fw_nil : fields_write [] [] []
| fw_out f v fs vs l : left_out f v -> fields_write fs vs l -> fields_write (f :: fs) (v :: vs) l
| fw_in f v fs vs l j : ~ left_out f v -> writes (gf_type f) v j -> fields_write fs vs l -> fields_write (f :: fs) (v :: vs) ((gf_json f, j) :: l).
End GoJson.

(** *** The same data *)
Inductive same_data : value -> value -> Prop :=
| sd_bool b : same_data (VBool b) (VBool b)
| sd_string s : same_data (VStr s) (VStr s)
| sd_number d d' : same_number d d' -> same_data (VDec d) (VDec d')
| sd_array l l' : Forall2 same_data l l' -> same_data (VArr l) (VArr l')
| sd_object l l' : length l = length l' -> (forall k x, In (k, x) l -> exists x', In (k, x') l' /\ same_data x x') -> same_data (VMap l) (VMap l').

(** ** Data that comes back *)
Definition not_go : list string := ["Struct"; "Enum"; "Union"; "UUID"; "Bytes"; "Any"; "UnitValue"].
Definition empty_json (x : value) : Prop :=
  match x with
  | VBool b => b = false
  | VStr s => s = ""
  | VDec d => same_number d (DFin 0 0)
  | VArr l => l = []
  | VMap l => l = []
  | _ => False
  end.
Section Fine.
Context (sch : schema) (runtime : bool) (round : Z -> decimal -> decimal) (big : decimal -> decimal)
  (time_read : string -> option timestamp) (time_write : timestamp -> string).
Definition has_kind (ts : typespec) (k : string) : Prop := exists ts', refers sch ts ts' /\ ts_type ts' = k.
Definition part_kept (n : string) : Prop :=
  ~ container n /\ ~ In n not_go /\ (forall ts', defines sch n ts' -> ts_type ts' = "Decimal" -> n = "Decimal").
Definition starts_with_letter (n : string) : Prop := exists c r, n = String c r /\ letter c.
(** what the types of the generated file keep, at one position of the data *)
Inductive kept_here (ts : typespec) : value -> Prop :=
| kh_bool b : ts_type ts = "Bool" -> kept_here ts (VBool b)
| kh_text s : In (ts_type ts) ["String"; "UUID"] -> kept_here ts (VStr s)
| kh_int d : In (ts_type ts) ["Int8"; "Int16"; "Int32"; "Int64"] -> kept_here ts (VDec d)
| kh_float32 d : ts_type ts = "Float32" -> round 32 d = d -> kept_here ts (VDec d)
| kh_float64 d : ts_type ts = "Float64" -> round 64 d = d -> kept_here ts (VDec d)
| kh_decimal d : ts_type ts = "Decimal" -> runtime = true -> big d = d -> kept_here ts (VDec d)
| kh_time s t : ts_type ts = "Timestamp" -> time_read s = Some t -> time_write t = s -> kept_here ts (VStr s)
| kh_enum s : ts_type ts = "Enum" -> (forall e, In e (ts_elements ts) -> ~ In "x_enumValue" (map fst (ee_annos e))) -> kept_here ts (VStr s)
| kh_array l : ts_type ts = "Array" -> part_kept (ts_items ts) -> kept_here ts (VArr l)
| kh_map l : ts_type ts = "Map" -> ts_keys ts = "String" -> part_kept (ts_items ts) -> kept_here ts (VMap l)
| kh_struct l : ts_type ts = "Struct" ->
    NoDup (map (fun f : fielddef => fd_name f) (ts_fields ts)) ->
    (forall f : fielddef, In f (ts_fields ts) -> tag_ok (fd_name f) /\ starts_with_letter (fd_name f) /\ ~ In (ts_type (fd_spec f)) not_go) ->
    (forall f : fielddef, In f (ts_fields ts) -> fd_required f = false -> ~ has_kind (fd_spec f) "Union" /\ ~ has_kind (fd_spec f) "Decimal") ->
    (forall (f : fielddef) x, In f (ts_fields ts) -> fd_required f = false -> In (fd_name f, x) l -> ~ empty_json x \/ has_kind (fd_spec f) "Struct") ->
    kept_here ts (VMap l)
| kh_ref v : ~ In (ts_type ts) kinds -> ~ has_kind ts "Decimal" -> v <> VNil -> kept_here ts v.
Definition kept (ts : typespec) (v : value) : Prop := forall ts2 v2, at_pos sch ts v ts2 v2 -> kept_here ts2 v2.
End Fine.
