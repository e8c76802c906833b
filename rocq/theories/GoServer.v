(** golang/golang_server.go: the text of the generated Go file of a server.  A panic in a function of the template is
    recovered by text/template (safeCall, since Go 1.16; go.mod asks for 1.18) and comes out of [Execute] as an error, so that
    no file is written (export_golang.go:240-244, 85-86). *)
From Verif Require Import GoStr Outcome Value Schema Model Misc Time Generator Golang GoModel.
Local Open Scope Z_scope.

(** [%q] of a string (strconv.Quote): bytes from 128 on are copied; unprintable and ill-formed ones, which Go escapes, are
    not modelled *)
Definition hexdigit (n : nat) : ascii := ascii_of_nat (if (n <? 10)%nat then 48 + n else 87 + n).
Definition quote_char (c : ascii) : string :=
  if Ascii.eqb c """" then "\""" else if Ascii.eqb c "\" then "\\"
  else let n := nat_of_ascii c in
    match n with
    | 7 => "\a" | 8 => "\b" | 9 => "\t" | 10 => "\n" | 11 => "\v" | 12 => "\f" | 13 => "\r"
    | _ =>
        if ((n <? 32) || (n =? 127))%nat then "\x" +++ String (hexdigit (n / 16)) (String (hexdigit (n mod 16)) "")
        else String c ""
    end%nat.
Fixpoint quote_chars (s : string) : string := match s with EmptyString => "" | String c r => quote_char c +++ quote_chars r end.
Definition go_quote (s : string) : string := """" +++ quote_chars s +++ """".

(** golang_server.go:47-54, golang_client.go:75-82 *)
Definition route_path (h : httpdef) : string :=
  match index_of "?" (h_path h) with Some i => stake i (h_path h) | None => h_path h end.
(** golang_server.go:173-179 *)
Definition server_type (m : model) (runtime : bool) (n : string) (st : gost) : result unit (string * gost) :=
  match find_type m n with None => Ok (n, st) | Some td => native_name m runtime (td_spec td) n st end.
(** golang_server.go:181-187 *)
Definition base_type (m : model) (n : string) : string :=
  match find_type m n with None => "" | Some td => ts_type (td_spec td) end.

(** [big.Float.Int64] (decimal.go:53-56): toward zero, and at the ends of the range outside of it *)
Definition clamp64 (z : Z) : Z := Z.max (- 2 ^ 63) (Z.min (2 ^ 63 - 1) z).
Definition dec_int64 (d : decimal) : Z :=
  match d with
  | DFin m e => clamp64 (if 0 <=? e then m * 2 ^ e else Z.quot m (2 ^ (- e)))
  | DInf neg => if neg then - 2 ^ 63 else 2 ^ 63 - 1
  end.
(** golang_server.go:214-222 *)
Definition int_default (v : value) : Z := match v with VDec d => dec_int64 d | _ => 0 end.

Section Server.
(** [sprint]: fmt.Sprint of a value that is neither nil nor a string (a pointer prints as an address); [parse_time]: sadl.ParseTimestamp *)
Context (sprint : value -> string) (parse_time : string -> option timestamp).
(** golang_server.go:189-199 *)
Definition string_default (v : value) : string := match v with VNil => "" | VStr s => s | _ => sprint v end.
(** golang_server.go:201-212 *)
Definition timestamp_default (v : value) : string :=
  match v with
  | VTime t => go_quote (ts_string t)
  | VStr s => match parse_time s with Some t => go_quote (ts_string t) | None => "nil" end
  | _ => "nil"
  end.

(** golang_server.go:142-171; [v] is the text that gives the value *)
Definition param_accessor (m : model) (runtime : bool) (p : paramspec) (v : string) (st : gost) : result unit (string * gost) :=
  let n := ts_type (fd_spec (ps_field p)) in
  let d := fd_default (ps_field p) in
  '(t, st1) <- server_type m runtime n st ;;
  let coerce := if has_prefix "*" t then "&" +++ sdrop 1 t else t in
  let bt := base_type m n in
  let wrap s := if coerce =?s bt then s else coerce +++ "(" +++ s +++ ")" in
  if str_mem bt ["String"; "UUID"] then
    Ok (wrap ("stringParam(" +++ v +++ ", " +++ go_quote (string_default d) +++ ")"), st1)
  else if bt =?s "Timestamp" then Ok ("timestampParam(" +++ v +++ ", " +++ timestamp_default d +++ ")", st1)
  else if str_mem bt ["Int32"; "Int8"; "Int16"; "Int64"] then
    Ok (wrap ("intParam(" +++ v +++ ", " +++ fmt_d (int_default d) +++ ")"), st1)
  else Panic.

(** golang_server.go:79, 91 *)
Definition bad_request : string :=
  tab +++ "if err != nil {" +++ nl +++ tab +++ tab +++ "errorResponse(w, 400, fmt.Sprint(err))" +++ nl +++ tab +++ tab +++ "return" +++ nl
  +++ tab +++ "}" +++ nl.
(** golang_server.go:81-93 *)
Definition emit_input (m : model) (runtime : bool) (p : paramspec) (st : gost) : result unit (string * gost) :=
  let n := fd_name (ps_field p) in
  let name := capitalize n in
  let set v := '(s, st1) <- param_accessor m runtime p v st ;; Ok (tab +++ "req." +++ name +++ " = " +++ s +++ nl, st1) in
  if negb (ps_query p =?s "") then set ("r.Form.Get(" +++ go_quote (ps_query p) +++ ")")
  else if negb (ps_header p =?s "") then set ("r.Header.Get(" +++ go_quote (ps_header p) +++ ")")
  else if ps_path p then set ("mux.Vars(r)[" +++ go_quote n +++ "]")
  else Ok (tab +++ "err := json.NewDecoder(r.Body).Decode(&req." +++ name +++ ")" +++ nl +++ bad_request, st).
(** golang_server.go:68-95 *)
Definition emit_inputs (m : model) (runtime : bool) (ins : list paramspec) (st : gost) : result unit (string * gost) :=
  let form := if existsb (fun p => negb (ps_query p =?s "")) ins then tab +++ "err := r.ParseForm()" +++ nl +++ bad_request else "" in
  '(s, st1) <- emit_all (emit_input m runtime) ins st ;; Ok (form +++ s, st1).
(** golang_server.go:96-105 *)
Definition emit_outputs (outs : list paramspec) : string :=
  String.concat "" (map (fun p =>
    if negb (ps_header p =?s "") then
      tab +++ tab +++ "w.Header().Add(""" +++ ps_header p +++ """, normalizeHeaderValue(""" +++ ps_header p +++ """, res."
      +++ capitalize (fd_name (ps_field p)) +++ "))" +++ nl
    else "") outs).
(** golang_server.go:106-113 *)
Definition emit_exception (m : model) (runtime : bool) (e : exceptionspec) (st : gost) : result unit (string * gost) :=
  '(t, st1) <- server_type m runtime (xc_type e) st ;;
  Ok (tab +++ tab +++ "case " +++ t +++ ":" +++ nl +++ tab +++ tab +++ tab +++ "jsonResponse(w, " +++ fmt_d (xc_status e) +++ ", err)" +++ nl, st1).
(** golang_server.go:114-121 *)
Definition expected_result (x : expectedspec) : string := if (xp_status x =? 204) || (xp_status x =? 304) then "_" else "res".
(** golang_server.go:122-130 *)
Fixpoint expected_entity (outs : list paramspec) : string :=
  match outs with
  | [] => "nil"
  | p :: r => if ps_header p =?s "" then "res." +++ capitalize (fd_name (ps_field p)) else expected_entity r
  end.

(** golang_server.go:229-243: one turn of the first loop; a nil [Expected] is dereferenced *)
Definition emit_handler (m : model) (runtime : bool) (adaptor : string) (h : httpdef) (st : gost) : result unit (string * gost) :=
  let method := capitalize (h_name h) in
  reqname <- go_capitalize (h_name h) ;;
  '(ins, st1) <- emit_inputs m runtime (h_inputs h) st ;;
  match h_expected h with
  | None => Panic
  | Some x =>
      '(exs, st2) <- emit_all (emit_exception m runtime) (h_exceptions h) st1 ;;
      Ok (nl +++ "func (handler *" +++ adaptor +++ ") " +++ method +++ "Handler(w http.ResponseWriter, r *http.Request) {" +++ nl
          +++ tab +++ "req := new(" +++ reqname +++ "Request)" +++ nl
          +++ ins +++ nl
          +++ tab +++ expected_result x +++ ", err := handler.impl." +++ method +++ "(req)" +++ nl
          +++ tab +++ "if err != nil {" +++ nl
          +++ tab +++ tab +++ "switch err.(type) {" +++ nl
          +++ exs +++ tab +++ tab +++ "default:" +++ nl
          +++ tab +++ tab +++ tab +++ "jsonResponse(w, 500, &serverError{Message: fmt.Sprint(err)})" +++ nl
          +++ tab +++ tab +++ "}" +++ nl
          +++ tab +++ "} else {" +++ nl
          +++ emit_outputs (xp_outputs x) +++ tab +++ tab +++ "jsonResponse(w, " +++ fmt_d (xp_status x) +++ ", " +++ expected_entity (xp_outputs x) +++ ")" +++ nl
          +++ tab +++ "}" +++ nl
          +++ "}" +++ nl, st2)
  end.
(** golang_server.go:255-258: one turn of the second loop *)
Definition emit_route (h : httpdef) : string :=
  nl +++ tab +++ "r.HandleFunc(b+""" +++ route_path h +++ """, func (w http.ResponseWriter, r *http.Request) {" +++ nl
  +++ "      adaptor." +++ capitalize (h_name h) +++ "Handler(w, r)" +++ nl
  +++ tab +++ "}).Methods(""" +++ h_method h +++ """)".

(** golang_server.go:264-385 *)
Definition server_library : string := join nl [
    "";
    "func stringParam(val string, def string) string {";
    "	if val == """" {";
    "		return def";
    "	}";
    "	return val";
    "}";
    "";
    "func timestampParam(val string, def *Timestamp) *Timestamp {";
    "	if val != """" {";
    "		ts, err := ParseTimestamp(val)";
    "		if err == nil {";
    "			return &ts";
    "		}";
    "	}";
    "	return def";
    "}";
    "";
    "func intParam(val string, def int64) int64 {";
    "	if val != """" {";
    "		i, err := strconv.ParseInt(val, 10, 64)";
    "		if err == nil {";
    "			return i";
    "		}";
    "	}";
    "	return def";
    "}";
    "";
    "func Pretty(obj interface{}) string {";
    "	buf := new(bytes.Buffer)";
    "	enc := json.NewEncoder(buf)";
    "	enc.SetEscapeHTML(false)";
    "	enc.SetIndent("""", ""  "")";
    "	if err := enc.Encode(&obj); err != nil {";
    "		return fmt.Sprint(obj)";
    "	}";
    "	return string(buf.String())";
    "}";
    "";
    "func Json(obj interface{}) string {";
    "   buf := new(bytes.Buffer)";
    "   enc := json.NewEncoder(buf)";
    "   enc.SetEscapeHTML(false)";
    "   if err := enc.Encode(&obj); err != nil {";
    "      return fmt.Sprint(obj)";
    "   }";
    "   return string(buf.String())";
    "}";
    "";
    "func jsonResponse(w http.ResponseWriter, status int, entity interface{}) {";
    "   w.Header().Set(""Content-Type"", ""application/json"")";
    "	w.WriteHeader(status)";
    "	io.WriteString(w, Pretty(entity))";
    "}";
    "";
    "func errorResponse(w http.ResponseWriter, status int, message string) {";
    "	jsonResponse(w, status, &serverError{Error: http.StatusText(status), Message: message})";
    "}";
    "";
    "func normalizeHeaderValue(key string, value interface{}) string {";
    "   switch strings.ToLower(key) {";
    "   case ""last-modified"", ""date"", ""expires"":";
    "      switch ts := value.(type) {";
    "      case time.Time:";
    "         return timestampRfc2616(ts)";
    "      case *Timestamp:";
    "         return timestampRfc2616(ts.Time)";
    "      case string:";
    "			return ts //just trust the application";
    "      default:";
    "         fmt.Sprintf(""Noncompliant value for %s header: %v"", key, ts)";
    "			return fmt.Sprint(ts) //rather than fail";
    "      }";
    "   }";
    "   return fmt.Sprint(value)";
    "}";
    "";
    "func intFromString(s string) int64 {";
    "	var n int64 = 0";
    "	_, _ = fmt.Sscanf(s, ""%d"", &n)";
    "	return n";
    "}";
    "";
    "func floatFromString(s string) float64 {";
    "	var n float64 = 0";
    "	_, _ = fmt.Sscanf(s, ""%g"", &n)";
    "	return n";
    "}";
    "";
    "func timestampRfc3339(ts time.Time) string {";
    "	if ts.IsZero() {";
    "		return """"";
    "	}";
    "	return ts.UTC().Format(time.RFC3339Nano)";
    "}";
    "";
    "func timestampRfc2616(ts time.Time) string {	";
    "	//i.e. ";
    "	if ts.IsZero() {";
    "		return """"";
    "	}";
    "	return ts.UTC().Format(http.TimeFormat)";
    "}";
    "";
    "// FoldHttpHeaderName adapts to the Go misfeature: all headers are";
    "// canonicalized as Capslike-This (for a header ""CapsLike-this"").";
    "func FoldHttpHeaderName(name string) string {";
    "	return http.CanonicalHeaderKey(name)";
    "}";
    "";
    "type serverError struct {";
    "   Error string  `json:""error""`";
    "	Message string `json:""message""`";
    "}";
    "";
    "func WebLog(h http.Handler) http.Handler {";
    "	return handlers.CombinedLoggingHandler(os.Stdout, h)";
    "}";
    "";
    "func AllowCors(next http.Handler, host string) http.Handler {";
    "   return handlers.CORS(handlers.AllowedOrigins([]string{""*""}), handlers.AllowedHeaders([]string{""Content-Type"", ""api_key"", ""Authorization""}), handlers.AllowedMethods([]string{""GET"",""PUT"",""DELETE"",""POST"",""OPTIONS""}))(next)";
    "}";
    ""].

(** golang_server.go:224-386: the executed template; [name] is gen.Name *)
Definition emit_server (m : model) (runtime : bool) (name : string) (st : gost) : result unit (string * gost) :=
  let service := capitalize name in
  let adaptor := uncapitalize name +++ "Adaptor" in
  let hs := sc_http (m_schema m) in
  '(handlers, st1) <- emit_all (emit_handler m runtime adaptor) hs st ;;
  Ok (nl +++ "type " +++ adaptor +++ " struct {" +++ nl +++ tab +++ "impl " +++ service +++ nl +++ "}" +++ nl +++ nl
      +++ handlers +++ nl +++ nl
      +++ "func InitServer(impl " +++ service +++ ", baseURL string) http.Handler {" +++ nl
      +++ tab +++ "adaptor := &" +++ adaptor +++ "{" +++ nl
      +++ tab +++ tab +++ "impl: impl," +++ nl
      +++ tab +++ "}" +++ nl
      +++ "   u, err := url.Parse(strings.TrimSuffix(baseURL, ""/""))" +++ nl
      +++ "   if err != nil {" +++ nl
      +++ "      log.Fatal(err)" +++ nl
      +++ "   }" +++ tab +++ nl
      +++ "   b := u.Path" +++ nl
      +++ tab +++ "r := mux.NewRouter()" +++ nl
      +++ String.concat "" (map emit_route hs) +++ nl
      +++ tab +++ "r.NotFoundHandler = http.HandlerFunc(func(w http.ResponseWriter, r *http.Request) {" +++ nl
      +++ tab +++ tab +++ "jsonResponse(w, 404, &serverError{Message: fmt.Sprintf(""Not Found: %s"", r.URL.Path)})" +++ nl
      +++ tab +++ "})" +++ nl
      +++ tab +++ "return r" +++ nl
      +++ "}" +++ nl
      +++ server_library, st1).

(** golang_server.go:26-38 *)
Definition server_imports : list string :=
  ["bytes"; "encoding/json"; "fmt"; "github.com/gorilla/mux"; "github.com/gorilla/handlers"; "io"; "log"; "net/http"; "net/url"; "os";
   "strconv"; "strings"; "time"].
(** export_golang.go:240-244 with text/template's safeCall *)
Definition recovered {A} (r : result unit A) : result unit A := match r with Panic => Err tt | _ => r end.
(** golang_server.go:12-22, export_golang.go:85-99: the text of the file; [Err]: no file, and Export returns the error.
    Errors of the file system are not modelled. *)
Definition create_server (m : model) (runtime : bool) (name pkg : string) : result unit string :=
  '(body, st) <- recovered (emit_server m runtime name (mkGo (fold_left adjoin server_imports []) false false)) ;;
  Ok (file_head pkg (go_imports st) +++ body).
End Server.
