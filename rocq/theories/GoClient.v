(** golang/golang_client.go: the text of the generated Go file of a client. *)
From Verif Require Import GoStr Outcome Value Schema Model Misc Time Generator Golang GoModel GoServer.
Local Open Scope Z_scope.

(** golang_client.go:132-146 *)
Definition not_set (m : model) (n : string) : string :=
  let bt := base_type m n in
  if bt =?s "String" then """"""
  else if str_mem bt ["Int8"; "Int16"; "Int32"; "Int64"] then "0"
  else if str_mem bt ["Float32"; "Float64"; "Decimal"] then "0.0"
  else if bt =?s "Bool" then "false"
  else "nil".
(** golang_client.go:148-160 *)
Definition type_format (m : model) (n : string) : string :=
  let bt := base_type m n in
  if bt =?s "String" then "%s"
  else if str_mem bt ["Int8"; "Int16"; "Int32"; "Int64"] then "%d"
  else if str_mem bt ["Float32"; "Float64"; "Decimal"] then "&g"
  else "%v".

(** golang_client.go:41-47 *)
Definition entity_method (h : httpdef) : bool := str_mem (h_method h) ["PUT"; "POST"; "PATCH"].
Definition content_type_line (h : httpdef) : string :=
  if entity_method h then tab +++ "hreq.Header.Add(""Content-Type"", ""application/json"")" else "".
(** golang_client.go:48-59 *)
Definition is_body (p : paramspec) : bool := negb (ps_path p) && (ps_query p =?s "") && (ps_header p =?s "").
Definition body_reader (h : httpdef) (st : gost) : string * gost :=
  if entity_method h then
    match find is_body (h_inputs h) with
    | Some p => ("bytes.NewReader([]byte(Json(req." +++ capitalize (fd_name (ps_field p)) +++ ")))", add_import "bytes" st)
    | None => ("nil", st)
    end
  else ("nil", st).
(** golang_client.go:60-70 *)
Definition query_param (m : model) (p : paramspec) : string :=
  let f := ps_field p in
  let n := ts_type (fd_spec f) in
  if ps_query p =?s "" then ""
  else
    tab +++ "if req." +++ capitalize (fd_name f) +++ " != " +++ not_set m n +++ " {" +++ nl
    +++ tab +++ tab +++ "args = append(args, fmt.Sprintf(""" +++ fd_name f +++ "=" +++ type_format m n +++ """, req." +++ capitalize (fd_name f) +++ "))" +++ nl
    +++ tab +++ "}" +++ nl.
(** golang_client.go:91-110: one turn *)
Definition read_entity (v : string) : string :=
  tab +++ tab +++ "err = json.NewDecoder(res.Body).Decode(&" +++ v +++ ")" +++ nl
  +++ tab +++ tab +++ "if err != nil {" +++ nl +++ tab +++ tab +++ tab +++ "return nil, err" +++ nl +++ tab +++ tab +++ "}" +++ nl.
Definition client_output (m : model) (runtime : bool) (p : paramspec) (st : gost) : result unit (string * gost) :=
  '(t, st1) <- server_type m runtime (ts_type (fd_spec (ps_field p))) st ;;
  let name := capitalize (fd_name (ps_field p)) in
  if ps_header p =?s "" then
    Ok (tab +++ tab +++ "var entity " +++ t +++ nl +++ read_entity "entity" +++ tab +++ tab +++ "response." +++ name +++ " = entity" +++ nl, st1)
  else
    let i := "res.Header.Get(" +++ go_quote (ps_header p) +++ ")" in
    Ok (tab +++ tab +++ "response." +++ name +++ " = " +++ (if t =?s "*Timestamp" then "TimestampFromString(" +++ i +++ ")" else i) +++ nl, st1).
(** golang_client.go:83-113; a nil [Expected] is dereferenced *)
Definition expected_results (m : model) (runtime : bool) (h : httpdef) (st : gost) : result unit (string * gost) :=
  match h_expected h with
  | None => Panic
  | Some x =>
      '(outs, st1) <- emit_all (client_output m runtime) (xp_outputs x) st ;;
      Ok (tab +++ "case " +++ fmt_d (xp_status x) +++ ":" +++ nl
          +++ tab +++ tab +++ "response := &" +++ capitalize (h_name h) +++ "Response{}" +++ nl
          +++ outs +++ tab +++ tab +++ "return response, nil" +++ nl, st1)
  end.
(** golang_client.go:114-127: one turn *)
Definition client_exception (m : model) (runtime : bool) (e : exceptionspec) (st : gost) : result unit (string * gost) :=
  '(t, st1) <- server_type m runtime (xc_type e) st ;;
  Ok (tab +++ "case " +++ fmt_d (xc_status e) +++ ":" +++ nl +++ tab +++ tab +++ "var errEntity " +++ t +++ nl +++ read_entity "errEntity"
      +++ tab +++ tab +++ "return nil, errEntity" +++ nl, st1).

(** golang_client.go:172-195: one turn of the loop *)
Definition emit_method (m : model) (runtime : bool) (client : string) (h : httpdef) (st : gost) : result unit (string * gost) :=
  let name := capitalize (h_name h) in
  let '(body, st1) := body_reader h st in
  '(results, st2) <- expected_results m runtime h st1 ;;
  '(exs, st3) <- emit_all (client_exception m runtime) (h_exceptions h) st2 ;;
  Ok (nl +++ "func (client *" +++ client +++ ") " +++ name +++ "(req *" +++ name +++ "Request) (*" +++ name +++ "Response, error) {" +++ nl
      +++ tab +++ "url := client.Target + """ +++ route_path h +++ """" +++ nl
      +++ tab +++ "var args []string" +++ nl
      +++ String.concat "" (map (query_param m) (h_inputs h)) +++ tab +++ "if len(args) > 0 {" +++ nl
      +++ tab +++ tab +++ "url = url + ""?"" + strings.Join(args, ""&"")" +++ nl
      +++ tab +++ "}" +++ nl
      +++ tab +++ "hreq, err := http.NewRequest(""" +++ h_method h +++ """, url, " +++ body +++ ")" +++ nl
      +++ tab +++ "if err != nil {" +++ nl +++ tab +++ tab +++ "return nil, err" +++ nl +++ tab +++ "}" +++ nl
      +++ content_type_line h +++ nl
      +++ tab +++ "res, err := http.DefaultClient.Do(hreq)" +++ nl
      +++ tab +++ "if err != nil {" +++ nl +++ tab +++ tab +++ "return nil, err" +++ nl +++ tab +++ "}" +++ nl
      +++ tab +++ "defer res.Body.Close()" +++ nl
      +++ tab +++ "switch res.StatusCode {" +++ nl
      +++ results +++ nl
      +++ exs +++ nl
      +++ tab +++ "}" +++ nl
      +++ "   return nil,fmt.Errorf(""whoops"")" +++ nl
      +++ "}" +++ nl, st3).
(** golang_client.go:162-197 *)
Definition emit_client (m : model) (runtime : bool) (name : string) (st : gost) : result unit (string * gost) :=
  let client := capitalize name +++ "Client" in
  '(methods, st1) <- emit_all (emit_method m runtime client) (sc_http (m_schema m)) st ;;
  Ok (nl +++ "type " +++ client +++ " struct {" +++ nl +++ tab +++ "Target string" +++ nl +++ "}" +++ nl +++ nl
      +++ "func NewClient(target string) (*CrudlClient, error) {" +++ nl
      +++ tab +++ "return &CrudlClient{" +++ nl
      +++ tab +++ tab +++ "Target: target," +++ nl
      +++ tab +++ "}, nil" +++ nl
      +++ "}" +++ nl
      +++ methods +++ nl +++ nl, st1).
(** golang_client.go:25-30 *)
Definition client_imports : list string := ["encoding/json"; "fmt"; "net/http"; "strings"].
(** golang_client.go:13-22, 129; as [create_server] *)
Definition create_client (m : model) (runtime : bool) (name pkg : string) : result unit string :=
  '(body, st) <- recovered (emit_client m runtime name (mkGo (fold_left adjoin client_imports []) false false)) ;;
  Ok (file_head pkg (go_imports st) +++ body).
