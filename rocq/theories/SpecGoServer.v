(** What a generated Go server does with a request and a generated Go client with a call. *)
From Verif Require Import GoStr Value Schema Scalars SpecTime SpecMisc SpecModel SpecPV SpecTrace SpecGo.

(** ** String literals of Go *)
(** [literal t s]: [t], without its quotes, stands for [s] *)
Definition escapes : list (ascii * nat) :=
  [("a", 7); ("b", 8); ("t", 9); ("n", 10); ("v", 11); ("f", 12); ("r", 13); ("\", 92); ("""", 34)]%char.
Inductive hex : ascii -> nat -> Prop :=
| hx_digit c n : n < 10 -> nat_of_ascii c = 48 + n -> hex c n
| hx_letter c n : 10 <= n < 16 -> nat_of_ascii c = 87 + n -> hex c n.
Inductive literal : string -> string -> Prop :=
| lt_end : literal "" ""
| lt_char c t s : c <> """"%char -> c <> "\"%char -> nat_of_ascii c <> 10 -> literal t s -> literal (String c t) (String c s)
| lt_escape c d t s : In (c, nat_of_ascii d) escapes -> literal t s -> literal ("\" +++ String c t) (String d s)
| lt_byte c d b i j t s : hex c i -> hex d j -> nat_of_ascii b = 16 * i + j -> literal t s ->
    literal ("\x" +++ String c (String d t)) (String b s).

(** ** A handler of the server *)
Inductive source := FromQuery (key : string) | FromHeader (key : string) | FromPath (key : string).   (* keys as literals *)
Inductive convert :=
| AsText (wrap : option string) (default : string)          (* the default as a literal *)
| AsTime (default : option string)
| AsInt (wrap : option string) (default : string).          (* the default as a numeral *)
Inductive input := Value_ (field : string) (s : source) (c : convert) | Body_ (field : string).
Record handler := mkHandler {
  hd_name : string; hd_method : string; hd_route : string;
  hd_inputs : list input;
  hd_quiet : bool;                                           (* the result is thrown away *)
  hd_status : string;
  hd_headers : list (string * string);                       (* header and field *)
  hd_entity : option string;                                 (* the field that is the body of the answer *)
  hd_exceptions : list (string * string) }.                  (* type and status *)

Definition is_value (i : input) : bool := match i with Value_ _ _ _ => true | Body_ _ => false end.
Definition from_query (i : input) : bool := match i with Value_ _ (FromQuery _) _ => true | _ => false end.

(** ** Its text *)
Definition tabbed (n : nat) (s : string) : string := Nat.iter n (fun t => indent +++ t) (line s).
Definition literal_text (t : string) : string := """" +++ t +++ """".
Definition source_text (s : source) : string :=
  match s with
  | FromQuery k => "r.Form.Get(" +++ literal_text k +++ ")"
  | FromHeader k => "r.Header.Get(" +++ literal_text k +++ ")"
  | FromPath k => "mux.Vars(r)[" +++ literal_text k +++ "]"
  end.
Definition wrapped (w : option string) (s : string) : string := match w with Some t => t +++ "(" +++ s +++ ")" | None => s end.
Definition convert_text (v : string) (c : convert) : string :=
  match c with
  | AsText w d => wrapped w ("stringParam(" +++ v +++ ", " +++ literal_text d +++ ")")
  | AsTime d => "timestampParam(" +++ v +++ ", " +++ match d with Some t => literal_text t | None => "nil" end +++ ")"
  | AsInt w d => wrapped w ("intParam(" +++ v +++ ", " +++ d +++ ")")
  end.
Definition failing_text : string :=
  tabbed 1 "if err != nil {" +++ tabbed 2 "errorResponse(w, 400, fmt.Sprint(err))" +++ tabbed 2 "return" +++ tabbed 1 "}".
Definition input_text (i : input) : string :=
  match i with
  | Value_ f s c => tabbed 1 ("req." +++ f +++ " = " +++ convert_text (source_text s) c)
  | Body_ f => tabbed 1 ("err := json.NewDecoder(r.Body).Decode(&req." +++ f +++ ")") +++ failing_text
  end.
Definition handler_text (adaptor : string) (h : handler) : string :=
  line "" +++ line ("func (handler *" +++ adaptor +++ ") " +++ hd_name h +++ "Handler(w http.ResponseWriter, r *http.Request) {")
  +++ tabbed 1 ("req := new(" +++ hd_name h +++ "Request)")
  +++ (if existsb from_query (hd_inputs h) then tabbed 1 "err := r.ParseForm()" +++ failing_text else "")
  +++ each input_text (hd_inputs h) +++ line ""
  +++ tabbed 1 ((if hd_quiet h then "_" else "res") +++ ", err := handler.impl." +++ hd_name h +++ "(req)")
  +++ tabbed 1 "if err != nil {" +++ tabbed 2 "switch err.(type) {"
  +++ each (fun e => tabbed 2 ("case " +++ fst e +++ ":") +++ tabbed 3 ("jsonResponse(w, " +++ snd e +++ ", err)")) (hd_exceptions h)
  +++ tabbed 2 "default:" +++ tabbed 3 "jsonResponse(w, 500, &serverError{Message: fmt.Sprint(err)})" +++ tabbed 2 "}"
  +++ tabbed 1 "} else {"
  +++ each (fun kf => tabbed 2 ("w.Header().Add(""" +++ fst kf +++ """, normalizeHeaderValue(""" +++ fst kf +++ """, res." +++ snd kf +++ "))")) (hd_headers h)
  +++ tabbed 2 ("jsonResponse(w, " +++ hd_status h +++ ", " +++ match hd_entity h with Some f => "res." +++ f | None => "nil" end +++ ")")
  +++ tabbed 1 "}" +++ line "}".
Definition route_text (h : handler) : string :=
  line "" +++ tabbed 1 ("r.HandleFunc(b+""" +++ hd_route h +++ """, func (w http.ResponseWriter, r *http.Request) {")
  +++ line ("      adaptor." +++ hd_name h +++ "Handler(w, r)") +++ indent +++ "}).Methods(""" +++ hd_method h +++ """)".
Definition server_text (library : string) (pkg : string) (imports : list string) (service adaptor : string) (hs : list handler) : string :=
  line "//" +++ line "// Generated by sadl" +++ line "//" +++ line ("package " +++ pkg) +++ imports_text imports
  +++ line "" +++ line ("type " +++ adaptor +++ " struct {") +++ tabbed 1 ("impl " +++ service) +++ line "}" +++ line ""
  +++ each (handler_text adaptor) hs +++ line "" +++ line ""
  +++ line ("func InitServer(impl " +++ service +++ ", baseURL string) http.Handler {")
  +++ tabbed 1 ("adaptor := &" +++ adaptor +++ "{") +++ tabbed 2 "impl: impl," +++ tabbed 1 "}"
  +++ line "   u, err := url.Parse(strings.TrimSuffix(baseURL, ""/""))" +++ line "   if err != nil {" +++ line "      log.Fatal(err)"
  +++ line ("   }" +++ indent) +++ line "   b := u.Path" +++ tabbed 1 "r := mux.NewRouter()"
  +++ each route_text hs +++ line ""
  +++ tabbed 1 "r.NotFoundHandler = http.HandlerFunc(func(w http.ResponseWriter, r *http.Request) {"
  +++ tabbed 2 "jsonResponse(w, 404, &serverError{Message: fmt.Sprintf(""Not Found: %s"", r.URL.Path)})"
  +++ tabbed 1 "})" +++ tabbed 1 "return r" +++ line "}" +++ library.

(** ** The handlers of a model *)
(** the part of a path template in front of the query *)
Definition path_part (p r : string) : Prop := no_char "?" r /\ (p = r \/ exists q, p = r +++ "?" +++ q).
(** the name of a Go type, as it is written in the server; a name without a definition is kept *)
Definition go_name (sch : schema) (runtime : bool) (n s : string) : Prop :=
  (~ known sch n /\ s = n) \/ exists ts t, defines sch n ts /\ go_use sch runtime ts n t /\ s = type_text t.
(** in a conversion a star in front is written as an ampersand *)
Definition wrap_name (s w : string) : Prop := (exists r, s = "*" +++ r /\ w = "&" +++ r) \/ ((forall r, s <> "*" +++ r) /\ w = s).
Definition wrap_of (sch : schema) (runtime : bool) (n w : string) : Prop := exists s, go_name sch runtime n s /\ wrap_name s w.
(** the value of a number, without its fraction and within the range of 64 bits *)
Definition whole_part (d : decimal) (z : Z) : Prop :=
  (exists m e w, d = DFin m e
    /\ ((0 <= e /\ w = m * 2 ^ e) \/ (e < 0 /\ exists r, m = w * 2 ^ (- e) + r /\ Z.abs r < 2 ^ (- e) /\ 0 <= r * m))
    /\ ((- 2 ^ 63 <= w < 2 ^ 63 /\ z = w) \/ (w < - 2 ^ 63 /\ z = - 2 ^ 63) \/ (2 ^ 63 <= w /\ z = 2 ^ 63 - 1)))%Z
  \/ (d = DInf true /\ z = - 2 ^ 63)%Z \/ (d = DInf false /\ z = 2 ^ 63 - 1)%Z.

Section Handlers.
(** [sprint]: what Go prints for a value; [instant s t]: [s] is read as the time [t]; [stamp t s]: [s] is how [t] is written *)
Context (sprint : value -> string) (instant : string -> timestamp -> Prop) (stamp : timestamp -> string -> Prop).
Context (sch : schema) (runtime : bool).
Inductive text_default : value -> string -> Prop :=
| xd_none : text_default VNil ""
| xd_string s : text_default (VStr s) s
| xd_other v : v <> VNil -> (forall s, v <> VStr s) -> text_default v (sprint v).
Inductive time_default : value -> option string -> Prop :=
| td_time t s l : stamp t s -> literal l s -> time_default (VTime t) (Some l)
| td_string s t u l : instant s t -> stamp t u -> literal l u -> time_default (VStr s) (Some l)
| td_none v : (forall t, v <> VTime t) -> (forall s t, v = VStr s -> ~ instant s t) -> time_default v None.
Inductive number_default : value -> Z -> Prop :=
| nd_decimal d z : whole_part d z -> number_default (VDec d) z
| nd_other v : (forall d, v <> VDec d) -> number_default v 0%Z.

Definition ints : list string := ["Int8"; "Int16"; "Int32"; "Int64"].
(** how the text of a parameter becomes a value: by the base type of its type *)
Inductive converted (f : fielddef) : convert -> Prop :=
| cv_text n ts w s d : ts_type (fd_spec f) = n -> defines sch n ts -> ts_type ts = "String" -> wrap_of sch runtime n w ->
    text_default (fd_default f) s -> literal d s -> converted f (AsText (Some w) d)
| cv_uuid ts s d : ts_type (fd_spec f) = "UUID" -> defines sch "UUID" ts -> ts_type ts = "UUID" ->
    text_default (fd_default f) s -> literal d s -> converted f (AsText None d)
| cv_named_uuid n ts w s d : n <> "UUID" -> ts_type (fd_spec f) = n -> defines sch n ts -> ts_type ts = "UUID" -> wrap_of sch runtime n w ->
    text_default (fd_default f) s -> literal d s -> converted f (AsText (Some w) d)
| cv_time n ts d : ts_type (fd_spec f) = n -> defines sch n ts -> ts_type ts = "Timestamp" -> time_default (fd_default f) d -> converted f (AsTime d)
| cv_int n ts w z d : ts_type (fd_spec f) = n -> defines sch n ts -> In (ts_type ts) ints -> wrap_of sch runtime n w ->
    number_default (fd_default f) z -> numeral d z -> converted f (AsInt (Some w) d).
(** a parameter is taken from the query, a header, the path or the body, in that order of preference *)
Inductive input_shown (p : paramspec) : input -> Prop :=
| is_query f k c : ps_query p <> "" -> large_first (fd_name (ps_field p)) f -> literal k (ps_query p) -> converted (ps_field p) c ->
    input_shown p (Value_ f (FromQuery k) c)
| is_header f k c : ps_query p = "" -> ps_header p <> "" -> large_first (fd_name (ps_field p)) f -> literal k (ps_header p) ->
    converted (ps_field p) c -> input_shown p (Value_ f (FromHeader k) c)
| is_path f k c : ps_query p = "" -> ps_header p = "" -> ps_path p = true -> large_first (fd_name (ps_field p)) f ->
    literal k (fd_name (ps_field p)) -> converted (ps_field p) c -> input_shown p (Value_ f (FromPath k) c)
| is_body_ f : ps_query p = "" -> ps_header p = "" -> ps_path p = false -> large_first (fd_name (ps_field p)) f -> input_shown p (Body_ f).
Inductive headers_shown : list paramspec -> list (string * string) -> Prop :=
| hh_nil : headers_shown [] []
| hh_skip p ps l : ps_header p = "" -> headers_shown ps l -> headers_shown (p :: ps) l
| hh_put p ps l f : ps_header p <> "" -> large_first (fd_name (ps_field p)) f -> headers_shown ps l -> headers_shown (p :: ps) ((ps_header p, f) :: l).
(** the first output that is not in a header *)
Definition entity_shown (ps : list paramspec) (e : option string) : Prop :=
  match e with
  | None => forall p, In p ps -> ps_header p <> ""
  | Some f => exists a p b, ps = a ++ p :: b /\ (forall q, In q a -> ps_header q <> "") /\ ps_header p = "" /\ large_first (fd_name (ps_field p)) f
  end.
Definition no_content (z : Z) : Prop := z = 204%Z \/ z = 304%Z.
Definition handler_shown (h : httpdef) (k : handler) : Prop :=
  exists x, h_expected h = Some x /\ h_name h <> "" /\ large_first (h_name h) (hd_name k)
  /\ hd_method k = h_method h /\ path_part (h_path h) (hd_route k)
  /\ Forall2 input_shown (h_inputs h) (hd_inputs k)
  /\ (hd_quiet k = true <-> no_content (xp_status x)) /\ numeral (hd_status k) (xp_status x)
  /\ headers_shown (xp_outputs x) (hd_headers k) /\ entity_shown (xp_outputs x) (hd_entity k)
  /\ Forall2 (fun e ts => go_name sch runtime (xc_type e) (fst ts) /\ numeral (snd ts) (xc_status e)) (h_exceptions h) (hd_exceptions k).
End Handlers.

Definition in_body (p : paramspec) : Prop := ps_query p = "" /\ ps_header p = "" /\ ps_path p = false.

(** ** The imports of the server: always the same, and the library if the type of an exception or of an input outside the body needs it *)
Definition server_packages : list string :=
  ["bytes"; "encoding/json"; "fmt"; "github.com/gorilla/mux"; "github.com/gorilla/handlers"; "io"; "log"; "net/http"; "net/url"; "os";
   "strconv"; "strings"; "time"].
Definition sadl_use (sch : schema) (runtime : bool) (n : string) : Prop :=
  exists ts t k, defines sch n ts /\ go_use sch runtime ts n t /\ type_mentions t (GLib k).
Definition value_use (sch : schema) (runtime : bool) (p : paramspec) : Prop := ~ in_body p /\ sadl_use sch runtime (ts_type (fd_spec (ps_field p))).
Definition action_use (sch : schema) (runtime : bool) (h : httpdef) : Prop :=
  (exists p, In p (h_inputs h) /\ value_use sch runtime p) \/ (exists e, In e (h_exceptions h) /\ sadl_use sch runtime (xc_type e)).

(** ** When there is no server *)
Definition simple_types : list string := ["String"; "UUID"; "Timestamp"] ++ ints.
Definition no_name (sch : schema) (n : string) : Prop := exists ts, defines sch n ts /\ no_go_type sch ts n.
Inductive server_fails (sch : schema) : Prop :=
| sf_name h : In h (sc_http sch) -> h_name h = "" -> server_fails sch
| sf_expected h : In h (sc_http sch) -> h_expected h = None -> server_fails sch
| sf_input h p : In h (sc_http sch) -> In p (h_inputs h) -> ~ in_body p ->
    (forall ts, defines sch (ts_type (fd_spec (ps_field p))) ts -> ~ In (ts_type ts) simple_types) -> server_fails sch
| sf_exception h e : In h (sc_http sch) -> In e (h_exceptions h) -> no_name sch (xc_type e) -> server_fails sch.

(** ** Go's rules for the variables of a function *)
(** [Define] is a [:=]; the blocks inside a handler define nothing, so that their steps are written in line *)
Inductive step := Define (vs : list string) | Use (v : string).
Fixpoint scoped (seen : list string) (ss : list step) : Prop :=
  match ss with
  | [] => True
  | Define vs :: r => (exists v, In v vs /\ v <> "_" /\ ~ In v seen) /\ scoped (vs ++ seen) r
  | Use v :: r => v <> "_" /\ In v seen /\ scoped seen r
  end.
Definition all_used (ss : list step) : Prop := forall vs v, In (Define vs) ss -> In v vs -> v <> "_" -> In (Use v) ss.
Definition checked : list step := [Define ["err"]; Use "r"; Use "err"; Use "w"; Use "err"].
Definition input_steps (i : input) : list step :=
  match i with
  | Value_ _ _ _ => [Use "req"; Use "r"]
  | Body_ _ => [Define ["err"]; Use "r"; Use "req"; Use "err"; Use "w"; Use "err"]
  end.
(** the steps of [handler_text] *)
Definition handler_steps (k : handler) : list step :=
  [Define ["req"]] ++ (if existsb from_query (hd_inputs k) then checked else []) ++ flat_map input_steps (hd_inputs k)
  ++ [Define [if hd_quiet k then "_" else "res"; "err"]; Use "handler"; Use "req"; Use "err"; Use "err"]
  ++ flat_map (fun _ => [Use "w"; Use "err"]) (hd_exceptions k) ++ [Use "w"; Use "err"]
  ++ flat_map (fun _ => [Use "w"; Use "res"]) (hd_headers k)
  ++ [Use "w"] ++ match hd_entity k with Some _ => [Use "res"] | None => [] end.
Definition variables_ok (k : handler) : Prop := scoped ["handler"; "w"; "r"] (handler_steps k) /\ all_used (handler_steps k).
(** the actions for which they are kept *)
Definition one_error (ps : list paramspec) : Prop :=
  (forall p q, In p ps -> In q ps -> ps_query p <> "" -> ~ in_body q) /\ (forall a p b, ps = a ++ p :: b -> in_body p -> none in_body (a ++ b)).
Definition neat (h : httpdef) : Prop :=
  exists x, h_expected h = Some x
  /\ ((no_content (xp_status x) /\ xp_outputs x = [] /\ (forall p, In p (h_inputs h) -> ps_query p = "" /\ ~ in_body p))
      \/ (~ no_content (xp_status x) /\ xp_outputs x <> [] /\ one_error (h_inputs h))).
