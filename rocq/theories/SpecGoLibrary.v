(** The functions of fixed text in the generated Go files that [SpecGoCall.v] and [SpecGoData.v] describe. *)
From Verif Require Import GoStr Schema SpecGo.

Definition has_text (s f : string) : Prop := exists a b, s = a +++ f +++ b.
(** parameters, answers and bodies *)
Definition server_functions : list string := map (each line) [
  [ "func stringParam(val string, def string) string {";
    "	if val == """" {";
    "		return def";
    "	}";
    "	return val";
    "}" ];
  [ "func timestampParam(val string, def *Timestamp) *Timestamp {";
    "	if val != """" {";
    "		ts, err := ParseTimestamp(val)";
    "		if err == nil {";
    "			return &ts";
    "		}";
    "	}";
    "	return def";
    "}" ];
  [ "func intParam(val string, def int64) int64 {";
    "	if val != """" {";
    "		i, err := strconv.ParseInt(val, 10, 64)";
    "		if err == nil {";
    "			return i";
    "		}";
    "	}";
    "	return def";
    "}" ];
  [ "func Pretty(obj interface{}) string {";
    "	buf := new(bytes.Buffer)";
    "	enc := json.NewEncoder(buf)";
    "	enc.SetEscapeHTML(false)";
    "	enc.SetIndent("""", ""  "")";
    "	if err := enc.Encode(&obj); err != nil {";
    "		return fmt.Sprint(obj)";
    "	}";
    "	return string(buf.String())";
    "}" ];
  [ "func Json(obj interface{}) string {";
    "   buf := new(bytes.Buffer)";
    "   enc := json.NewEncoder(buf)";
    "   enc.SetEscapeHTML(false)";
    "   if err := enc.Encode(&obj); err != nil {";
    "      return fmt.Sprint(obj)";
    "   }";
    "   return string(buf.String())";
    "}" ];
  [ "func jsonResponse(w http.ResponseWriter, status int, entity interface{}) {";
    "   w.Header().Set(""Content-Type"", ""application/json"")";
    "	w.WriteHeader(status)";
    "	io.WriteString(w, Pretty(entity))";
    "}" ];
  [ "func errorResponse(w http.ResponseWriter, status int, message string) {";
    "	jsonResponse(w, status, &serverError{Error: http.StatusText(status), Message: message})";
    "}" ];
  [ "func normalizeHeaderValue(key string, value interface{}) string {";
    "   switch strings.ToLower(key) {";
    "   case ""last-modified"", ""date"", ""expires"":";
    "      switch ts := value.(type) {";
    "      case time.Time:";
    "         return timestampRfc2616(ts)";
    "      case *Timestamp:";
    "         return timestampRfc2616(ts.Time)";
    "      case string:";
    "			return ts //just trust the application";
    "      default:";
    "         fmt.Sprintf(""Noncompliant value for %s header: %v"", key, ts)";
    "			return fmt.Sprint(ts) //rather than fail";
    "      }";
    "   }";
    "   return fmt.Sprint(value)";
    "}" ];
  [ "func timestampRfc2616(ts time.Time) string {	";
    "	//i.e. ";
    "	if ts.IsZero() {";
    "		return """"";
    "	}";
    "	return ts.UTC().Format(http.TimeFormat)";
    "}" ];
  [ "type serverError struct {";
    "   Error string  `json:""error""`";
    "	Message string `json:""message""`";
    "}" ] ].
(** decimals and their JSON *)
Definition decimal_functions : list string := map (each line) [
  [ "const DecimalPrecision = uint(250)" ];
  [ "type Decimal struct {";
    "	big.Float";
    "}" ];
  [ "func (d *Decimal) MarshalJSON() ([]byte, error) {";
    "	repr := d.Text('f', -1)";
    "	stringRepr := ""\"""" + repr + ""\""""";
    "	return []byte(stringRepr), nil";
    "}" ];
  [ "func (d *Decimal) UnmarshalJSON(b []byte) error {";
    "	var stringRepr string";
    "	err := json.Unmarshal(b, &stringRepr)";
    "	if err == nil {";
    "		var num *Decimal";
    "		num, err = ParseDecimal(stringRepr)";
    "		if err == nil {";
    "			*d = *num";
    "			return nil";
    "		}";
    "	} else {";
    "		var floatRepr float64";
    "		err = json.Unmarshal(b, &floatRepr)";
    "		if err == nil {";
    "         *d = *NewDecimal(floatRepr)";
    "			return nil";
    "		}";
    "	}";
    "	return fmt.Errorf(""Bad Decimal number: %s"", string(b))";
    "}" ];
  [ "func ParseDecimal(text string) (*Decimal, error) {";
    "	num, _, err := big.ParseFloat(text, 10, DecimalPrecision, big.ToNearestEven)";
    "	if err != nil {";
    "		return nil, fmt.Errorf(""Bad Decimal number: %s"", text)";
    "	}";
    "   return &Decimal{Float:*num}, nil";
    "}" ];
  [ "func NewDecimal(val float64) *Decimal {";
    "   return &Decimal{Float:*big.NewFloat(val)}";
    "}" ] ].
(** timestamps and their JSON *)
Definition timestamp_functions : list string := map (each line) [
  [ "type Timestamp struct {";
    "	time.Time";
    "}" ];
  [ "const RFC3339Milli = ""%d-%02d-%02dT%02d:%02d:%02d.%03dZ""" ];
  [ "func (ts Timestamp) String() string {";
    "	if ts.IsZero() {";
    "		return """"";
    "	}";
    "	return fmt.Sprintf(RFC3339Milli, ts.Year(), ts.Month(), ts.Day(), ts.Hour(), ts.Minute(), ts.Second(), ts.Nanosecond()/1000000)";
    "}" ];
  [ "func (ts Timestamp) MarshalJSON() ([]byte, error) {";
    "	return []byte(""\"""" + ts.String() + ""\""""), nil";
    "}" ];
  [ "func (ts *Timestamp) UnmarshalJSON(b []byte) error {";
    "	var j string";
    "	err := json.Unmarshal(b, &j)";
    "	if err == nil {";
    "		var tsp Timestamp";
    "		tsp, err = ParseTimestamp(string(j))";
    "		if err == nil {";
    "			*ts = tsp";
    "		}";
    "	}";
    "	return err";
    "}" ];
  [ "func TimestampFromString(s string) *Timestamp {";
    "	ts, err := ParseTimestamp(s)";
    "   if err != nil {";
    "		return nil";
    "	}";
    "	return &ts";
    "}" ];
  [ "func ParseTimestamp(s string) (Timestamp, error) {";
    "	layout := ""2006-01-02T15:04:05.999Z"" //derive this from the spec used for output?";
    "	t, e := time.Parse(layout, s)";
    "	if e != nil {";
    "		if strings.HasSuffix(s, ""+00:00"") || strings.HasSuffix(s, ""-00:00"") {";
    "			t, e = time.Parse(layout, s[:len(s)-6]+""Z"")";
    "		} else if strings.HasSuffix(s, ""+0000"") || strings.HasSuffix(s, ""-0000"") {";
    "			t, e = time.Parse(layout, s[:len(s)-5]+""Z"")";
    "		} else {";
    "			t, e = time.Parse(""Mon, 02 Jan 2006 15:04:05 GMT"", s) //Last-Modified, etc are of in RFC2616 format";
    "		}";
    "		if e != nil {";
    "			var ts Timestamp";
    "			return ts, fmt.Errorf(""Bad Timestamp: %q"", s)";
    "		}";
    "	}";
    "	return Timestamp{t}, nil";
    "}" ] ].
