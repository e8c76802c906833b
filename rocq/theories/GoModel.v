(** golang/golang_model.go: the text of the generated Go file of types, with its imports. *)
From Verif Require Import GoStr Outcome Value Schema Model Misc Generator Golang.

(** export_golang.go:31-48: what generating the file of types changes: [imports], [createTimestamp], [createDecimal] *)
Record gost := mkGo { go_imports : list string; go_time : bool; go_dec : bool }.
(** export_golang.go:121-123 *)
Definition add_import (p : string) (st : gost) : gost := mkGo (adjoin (go_imports st) p) (go_time st) (go_dec st).
Definition set_time (st : gost) : gost := mkGo (go_imports st) true (go_dec st).
Definition set_dec (st : gost) : gost := mkGo (go_imports st) (go_time st) true.

(** export_golang.go:169-217: what nativeTypeName does beside returning a name (that is [native_type]) *)
Fixpoint native_effect (m : model) (runtime : bool) (fuel : nat) (ts : typespec) (name : string) (st : gost) : gost :=
  match fuel with
  | O => st
  | S f =>
      if name =?s "Decimal" then (if runtime then add_import "github.com/boynton/sadl" st else set_dec st)
      else if name =?s "Timestamp" then (if runtime then add_import "github.com/boynton/sadl" st else set_time st)
      else if name =?s "UnitValue" then (if runtime then add_import "github.com/boynton/sadl" st else st)
      else if name =?s "Array" then
        match find_type m (ts_items ts) with
        | None => st
        | Some td => native_effect m runtime f (td_spec td) (ts_items ts) st
        end
      else if name =?s "Map" then
        match find_type m (ts_items ts), find_type m (ts_keys ts) with
        | Some it, Some kt =>
            native_effect m runtime f (td_spec it) (ts_items ts) (native_effect m runtime f (td_spec kt) (ts_keys ts) st)
        | _, _ => st
        end
      else st
  end.
(** three levels are enough: Array, its items Array, and that one's items, the type with the empty name *)
Definition native_name (m : model) (runtime : bool) (ts : typespec) (name : string) (st : gost) : result unit (string * gost) :=
  s <- native_type m runtime 3 ts name ;; Ok (s, native_effect m runtime 3 ts name st).

Definition tab : string := String "009" EmptyString.
Definition bq : string := "`".

(** golang_model.go:154-163 (and 183-188 with [omit] true for every field): the lines of the fields *)
Fixpoint emit_fields (m : model) (runtime : bool) (fields : list (string * bool * typespec)) (st : gost) : result unit (string * gost) :=
  match fields with
  | [] => Ok ("", st)
  | (n, omit, ts) :: r =>
      fname <- go_capitalize n ;;
      '(ftype, st1) <- native_name m runtime ts (ts_type ts) st ;;
      '(rest, st2) <- emit_fields m runtime r st1 ;;
      Ok ("    " +++ fname +++ " " +++ ftype +++ " " +++ bq +++ "json:""" +++ n +++ (if omit then ",omitempty" else "") +++ """" +++ bq +++ nl
          +++ rest, st2)
  end.
Definition struct_field (f : fielddef) : string * bool * typespec := (fd_name f, negb (fd_required f), fd_spec f).
Definition union_field (v : variantdef) : string * bool * typespec := (uv_name v, true, uv_spec v).

(** golang_model.go:165-169, 190-194; [errors] are the names of the exceptions of all actions *)
Definition emit_error (errors : list string) (n : string) : string :=
  if str_mem n errors then
    "func (e *" +++ n +++ ") Error() string {" +++ nl +++ tab +++ "return """ +++ n +++ """" +++ nl +++ "}" +++ nl +++ nl
  else "".
(** golang_model.go:152-170; for a request or response [errors] is nil *)
Definition emit_struct (m : model) (runtime : bool) (errors : list string) (n : string) (fields : list fielddef) (st : gost)
  : result unit (string * gost) :=
  '(fs, st1) <- emit_fields m runtime (map struct_field fields) st ;;
  Ok ("type " +++ n +++ " struct {" +++ nl +++ fs +++ "}" +++ nl +++ nl +++ emit_error errors n, st1).
(** golang_model.go:172-195 *)
Definition emit_union (m : model) (runtime : bool) (errors : list string) (n : string) (vs : list variantdef) (st : gost)
  : result unit (string * gost) :=
  let tag := n +++ "VariantTag" in
  '(fs, st1) <- emit_fields m runtime (map union_field vs) st ;;
  Ok ("type " +++ tag +++ " int" +++ nl +++ "const (" +++ nl +++ "    _ " +++ tag +++ " = iota" +++ nl
      +++ String.concat "" (map (fun v => "    " +++ tag +++ capitalize (uv_name v) +++ nl) vs)
      +++ ")" +++ nl +++ nl
      +++ "type " +++ n +++ " struct {" +++ nl +++ "    Variant " +++ tag +++ " " +++ bq +++ "json:""-""" +++ bq +++ nl
      +++ fs +++ "}" +++ nl +++ nl +++ emit_error errors n, st1).

(** golang_model.go:197-247: the executed template *)
Definition enum_value (e : enumelt) : string :=
  let v := get_annotation (ee_annos e) "x_enumValue" in if v =?s "" then ee_symbol e else v.
Definition emit_enum (n : string) (es : list enumelt) : string :=
  "type " +++ n +++ " int" +++ nl +++ nl +++ "const (" +++ nl +++ "    _ " +++ n +++ " = iota"
  +++ String.concat "" (map (fun e => nl +++ "    " +++ ee_symbol e) es) +++ nl +++ ")" +++ nl +++ nl
  +++ "var names" +++ n +++ " = []string{"
  +++ String.concat "" (map (fun e => nl +++ "    " +++ ee_symbol e +++ ": """ +++ enum_value e +++ """,") es) +++ nl +++ "}" +++ nl +++ nl
  +++ "func (e " +++ n +++ ") String() string {" +++ nl +++ "    return names" +++ n +++ "[e]" +++ nl +++ "}" +++ nl +++ nl
  +++ "func (e " +++ n +++ ") MarshalJSON() ([]byte, error) {" +++ nl +++ "    return json.Marshal(e.String())" +++ nl +++ "}" +++ nl +++ nl
  +++ "func (e *" +++ n +++ ") UnmarshalJSON(b []byte) error {" +++ nl +++ "    var s string" +++ nl
  +++ "    err := json.Unmarshal(b, &s)" +++ nl +++ "    if err == nil {" +++ nl
  +++ "        for v, s2 := range names" +++ n +++ " {" +++ nl +++ "            if s == s2 {" +++ nl
  +++ "                *e = " +++ n +++ "(v)" +++ nl +++ "                return nil" +++ nl +++ "             }" +++ nl +++ "        }" +++ nl
  +++ "        err = fmt.Errorf(""Bad enum symbol for type " +++ n +++ ": %s"", s)" +++ nl +++ "    }" +++ nl +++ "    return err" +++ nl +++ "}" +++ nl.

(** golang_model.go:103-139; UnitValue (412-414) and the kinds that are not named panic *)
Definition number_names : list string := ["Int8"; "Int16"; "Int32"; "Int64"; "Float32"; "Float64"].
Definition emit_body (m : model) (runtime : bool) (errors : list string) (td : typedef) (st : gost) : result unit (string * gost) :=
  let n := td_name td in
  let ts := td_spec td in
  let t := ts_type ts in
  if t =?s "Struct" then emit_struct m runtime errors n (ts_fields ts) st
  else if t =?s "Union" then emit_union m runtime errors n (ts_variants ts) st
  else if t =?s "Enum" then Ok (emit_enum n (ts_elements ts), st)
  else if t =?s "String" then Ok ("type " +++ n +++ " string" +++ nl, st)
  else if t =?s "UUID" then Ok ("type " +++ n +++ " string //UUID" +++ nl, st)
  else if t =?s "Decimal" then Ok ("type " +++ n +++ " Decimal" +++ nl, set_dec st)
  else if t =?s "Array" then
    '(i, st1) <- native_name m runtime ts (ts_items ts) st ;; Ok ("type " +++ n +++ " []" +++ i +++ nl, st1)
  else if t =?s "Map" then
    '(k, st1) <- native_name m runtime ts (ts_keys ts) st ;;
    '(i, st2) <- native_name m runtime ts (ts_items ts) st1 ;; Ok ("type " +++ n +++ " map[" +++ k +++ "]" +++ i +++ nl, st2)
  else if str_mem t number_names then
    Ok ("type " +++ n +++ " " +++ uncapitalize t +++ nl
        +++ "func " +++ n +++ "FromString(s string) " +++ n +++ "{" +++ nl +++ tab +++ "n, err := strconv.ParseInt(s, 10, 64)" +++ nl
        +++ tab +++ "if err != nil {" +++ nl +++ tab +++ tab +++ "return 0" +++ nl +++ tab +++ "}" +++ nl +++ tab +++ "return n" +++ nl +++ "}" +++ nl,
        add_import "strconv" st)
  else Panic.
Definition emit_type (m : model) (runtime : bool) (errors : list string) (td : typedef) (st : gost) : result unit (string * gost) :=
  '(s, st1) <- emit_body m runtime errors td st ;;
  Ok (nl +++ "//" +++ nl +++ "// " +++ td_name td +++ nl +++ "//" +++ nl +++ s, st1).

Fixpoint emit_all {A} (f : A -> gost -> result unit (string * gost)) (l : list A) (st : gost) : result unit (string * gost) :=
  match l with
  | [] => Ok ("", st)
  | x :: r => '(s, st1) <- f x st ;; '(rest, st2) <- emit_all f r st1 ;; Ok (s +++ rest, st2)
  end.

(** golang_model.go:61-87; a nil [Expected] is dereferenced *)
Definition emit_action (m : model) (runtime : bool) (h : httpdef) (st : gost) : result unit (string * gost) :=
  name <- go_capitalize (h_name h) ;;
  '(q, st1) <- emit_struct m runtime [] (name +++ "Request") (map ps_field (h_inputs h)) st ;;
  match h_expected h with
  | None => Panic
  | Some x =>
      '(p, st2) <- emit_struct m runtime [] (name +++ "Response") (map ps_field (xp_outputs x)) st1 ;; Ok (q +++ p, st2)
  end.
(** golang_model.go:89-101 *)
Definition emit_defs (m : model) (runtime : bool) (st : gost) : result unit (string * gost) :=
  let sch := m_schema m in
  '(a, st1) <- emit_all (emit_action m runtime) (sc_http sch) st ;;
  '(b, st2) <- emit_all (emit_type m runtime (map xc_type (flat_map h_exceptions (sc_http sch)))) (sc_types sch) st1 ;;
  Ok (a +++ b, st2).

(** golang_model.go:28-51.  An empty action name makes [gen.Capitalize] panic inside the template, which may come out as an
    error of the template; [emit_action] then panics on the same name. *)
Fixpoint signatures (hs : list httpdef) : result unit string :=
  match hs with
  | [] => Ok ""
  | h :: r =>
      name <- go_capitalize (h_name h) ;;
      rest <- signatures r ;;
      Ok (nl +++ "    " +++ name +++ "(req *" +++ name +++ "Request) (*" +++ name +++ "Response, error)" +++ rest)
  end.
Definition emit_interface (service : string) (hs : list httpdef) : result unit string :=
  sigs <- signatures hs ;;
  Ok (nl +++ "//" +++ nl +++ "// " +++ service +++ " is the interface that the service implementation must conform to" +++ nl +++ "//" +++ nl
      +++ "type " +++ service +++ " interface {" +++ sigs +++ nl +++ "}" +++ nl +++ nl).

(** golang_model.go:259-339 *)
Definition decimal_type : string := join nl [
    "// Decimal is a big.Float equivalent, but marshals to JSON as strings to preserve precision.";
    "";
    "const DecimalPrecision = uint(250)";
    "";
    "type Decimal struct {";
    "	big.Float";
    "}";
    "";
    "// Encode as a string. Encoding as a JSON number works fine, but the Unbmarshal doesn't. If we use string as the representation in JSON, it works fine.";
    "// What a shame.";
    "func (d *Decimal) MarshalJSON() ([]byte, error) {";
    "	repr := d.Text('f', -1)";
    "	stringRepr := ""\"""" + repr + ""\""""";
    "	return []byte(stringRepr), nil";
    "}";
    "";
    "func (d *Decimal) UnmarshalJSON(b []byte) error {";
    "	var stringRepr string";
    "	err := json.Unmarshal(b, &stringRepr)";
    "	if err == nil {";
    "		var num *Decimal";
    "		num, err = ParseDecimal(stringRepr)";
    "		if err == nil {";
    "			*d = *num";
    "			return nil";
    "		}";
    "	} else {";
    "		var floatRepr float64";
    "		err = json.Unmarshal(b, &floatRepr)";
    "		if err == nil {";
    "         *d = *NewDecimal(floatRepr)";
    "			return nil";
    "		}";
    "	}";
    "	return fmt.Errorf(""Bad Decimal number: %s"", string(b))";
    "}";
    "";
    "func DecimalFromString(text string) *Decimal {";
    "   dec, err := ParseDecimal(text)";
    "   if err != nil {";
    "		return nil";
    "	}";
    "	return dec";
    "}";
    "";
    "func ParseDecimal(text string) (*Decimal, error) {";
    "	num, _, err := big.ParseFloat(text, 10, DecimalPrecision, big.ToNearestEven)";
    "	if err != nil {";
    "		return nil, fmt.Errorf(""Bad Decimal number: %s"", text)";
    "	}";
    "   return &Decimal{Float:*num}, nil";
    "}";
    "";
    "func NewDecimal(val float64) *Decimal {";
    "   return &Decimal{Float:*big.NewFloat(val)}";
    "}";
    "";
    "func (d *Decimal) String() string {";
    "	return fmt.Sprint(d)";
    "}";
    "";
    "func (d *Decimal) AsInt32() int32 {";
    "	n := d.AsInt64()";
    "	return int32(n)";
    "}";
    "";
    "func (d *Decimal) AsInt64() int64 {";
    "	i, _ := d.Int64()";
    "	return i";
    "}";
    "";
    "func (d *Decimal) AsFloat64() float64 {";
    "	f, _ := d.Float64()";
    "	return f";
    "}";
    "";
    "func (d *Decimal) AsBigFloat() *big.Float {";
    "   return &d.Float";
    "}";
    "";
    ""].
(** golang_model.go:352-410 *)
Definition timestamp_type : string := join nl [
    "";
    "";
    "type Timestamp struct {";
    "	time.Time";
    "}";
    "";
    "const RFC3339Milli = ""%d-%02d-%02dT%02d:%02d:%02d.%03dZ""";
    "";
    "func (ts Timestamp) String() string {";
    "	if ts.IsZero() {";
    "		return """"";
    "	}";
    "	return fmt.Sprintf(RFC3339Milli, ts.Year(), ts.Month(), ts.Day(), ts.Hour(), ts.Minute(), ts.Second(), ts.Nanosecond()/1000000)";
    "}";
    "";
    "func (ts Timestamp) MarshalJSON() ([]byte, error) {";
    "	return []byte(""\"""" + ts.String() + ""\""""), nil";
    "}";
    "";
    "func (ts *Timestamp) UnmarshalJSON(b []byte) error {";
    "	var j string";
    "	err := json.Unmarshal(b, &j)";
    "	if err == nil {";
    "		var tsp Timestamp";
    "		tsp, err = ParseTimestamp(string(j))";
    "		if err == nil {";
    "			*ts = tsp";
    "		}";
    "	}";
    "	return err";
    "}";
    "";
    "func TimestampFromString(s string) *Timestamp {";
    "	ts, err := ParseTimestamp(s)";
    "   if err != nil {";
    "		return nil";
    "	}";
    "	return &ts";
    "}";
    "";
    "func ParseTimestamp(s string) (Timestamp, error) {";
    "	layout := ""2006-01-02T15:04:05.999Z"" //derive this from the spec used for output?";
    "	t, e := time.Parse(layout, s)";
    "	if e != nil {";
    "		if strings.HasSuffix(s, ""+00:00"") || strings.HasSuffix(s, ""-00:00"") {";
    "			t, e = time.Parse(layout, s[:len(s)-6]+""Z"")";
    "		} else if strings.HasSuffix(s, ""+0000"") || strings.HasSuffix(s, ""-0000"") {";
    "			t, e = time.Parse(layout, s[:len(s)-5]+""Z"")";
    "		} else {";
    "			t, e = time.Parse(""Mon, 02 Jan 2006 15:04:05 GMT"", s) //Last-Modified, etc are of in RFC2616 format";
    "		}";
    "		if e != nil {";
    "			var ts Timestamp";
    "			return ts, fmt.Errorf(""Bad Timestamp: %q"", s)";
    "		}";
    "	}";
    "	return Timestamp{t}, nil";
    "}";
    ""].
(** golang_model.go:341-350 *)
Definition emit_timestamp (st : gost) : string * gost :=
  (timestamp_type, add_import "time" (add_import "strings" (add_import "fmt" (add_import "encoding/json" st)))).
(** golang_model.go:249-257 *)
Definition emit_decimal (st : gost) : string * gost :=
  (decimal_type, add_import "math/big" (add_import "fmt" (add_import "encoding/json" st))).

(** export_golang.go:85-95: the head of the file; [pkg] is [package_name] of the package *)
Definition file_head (pkg : string) (imports : list string) : string :=
  "//" +++ nl +++ "// Generated by sadl" +++ nl +++ "//" +++ nl +++ "package " +++ pkg +++ nl
  +++ match imports with
      | [] => ""
      | _ => nl +++ "import(" +++ nl +++ String.concat "" (map (fun p => tab +++ """" +++ p +++ """" +++ nl) imports) +++ ")" +++ nl
      end.

(** golang_model.go:10-26 with the content that WriteGoFile writes; [service] is [gen.Name].  Errors of the file system are
    left to [Generator.v]. *)
Definition create_model (m : model) (runtime : bool) (service pkg : string) : result unit string :=
  i <- emit_interface service (sc_http (m_schema m)) ;;
  '(d, st) <- emit_defs m runtime (mkGo [] false false) ;;
  let '(t, st1) := if go_time st then emit_timestamp st else ("", st) in
  let '(c, st2) := if go_dec st1 then emit_decimal st1 else ("", st1) in
  Ok (file_head pkg (go_imports st2) +++ i +++ d +++ t +++ c).
