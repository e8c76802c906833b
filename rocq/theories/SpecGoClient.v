(** What a generated Go client does. *)
From Verif Require Import GoStr Value Schema Scalars SpecTime SpecMisc SpecModel SpecPV SpecTrace SpecGo SpecGoServer.

(** ** A method of the client *)
Record cquery := mkCQ { cq_field : string; cq_zero : string; cq_key : string; cq_verb : string }.
Inductive coutput := OutBody (field type : string) | OutHeader (field key : string) (time : bool).   (* the key as a literal *)
Record cmethod := mkCM {
  cm_name : string; cm_method : string; cm_route : string;
  cm_query : list cquery; cm_body : option string;
  cm_status : string; cm_outputs : list coutput;
  cm_exceptions : list (string * string) }.                  (* type and status *)

(** ** Its text *)
Definition with_entity (method : string) : Prop := In method ["PUT"; "POST"; "PATCH"].
Definition entity_line (method : string) : string :=
  if in_dec string_dec method ["PUT"; "POST"; "PATCH"] then tabbed 1 "hreq.Header.Add(""Content-Type"", ""application/json"")" else line "".
Definition giving_up (n : nat) : string := tabbed n "if err != nil {" +++ tabbed (S n) "return nil, err" +++ tabbed n "}".
Definition reading (v : string) : string := tabbed 2 ("err = json.NewDecoder(res.Body).Decode(&" +++ v +++ ")") +++ giving_up 2.
Definition cquery_text (q : cquery) : string :=
  tabbed 1 ("if req." +++ cq_field q +++ " != " +++ cq_zero q +++ " {")
  +++ tabbed 2 ("args = append(args, fmt.Sprintf(""" +++ cq_key q +++ "=" +++ cq_verb q +++ """, req." +++ cq_field q +++ "))") +++ tabbed 1 "}".
Definition coutput_text (o : coutput) : string :=
  match o with
  | OutBody f t => tabbed 2 ("var entity " +++ t) +++ reading "entity" +++ tabbed 2 ("response." +++ f +++ " = entity")
  | OutHeader f k time =>
      let get := "res.Header.Get(" +++ literal_text k +++ ")" in
      tabbed 2 ("response." +++ f +++ " = " +++ if time then "TimestampFromString(" +++ get +++ ")" else get)
  end.
Definition cmethod_text (client : string) (c : cmethod) : string :=
  line "" +++ line ("func (client *" +++ client +++ ") " +++ cm_name c +++ "(req *" +++ cm_name c +++ "Request) (*" +++ cm_name c +++ "Response, error) {")
  +++ tabbed 1 ("url := client.Target + """ +++ cm_route c +++ """") +++ tabbed 1 "var args []string"
  +++ each cquery_text (cm_query c)
  +++ tabbed 1 "if len(args) > 0 {" +++ tabbed 2 "url = url + ""?"" + strings.Join(args, ""&"")" +++ tabbed 1 "}"
  +++ tabbed 1 ("hreq, err := http.NewRequest(""" +++ cm_method c +++ """, url, "
       +++ match cm_body c with Some f => "bytes.NewReader([]byte(Json(req." +++ f +++ ")))" | None => "nil" end +++ ")")
  +++ giving_up 1 +++ entity_line (cm_method c)
  +++ tabbed 1 "res, err := http.DefaultClient.Do(hreq)" +++ giving_up 1
  +++ tabbed 1 "defer res.Body.Close()" +++ tabbed 1 "switch res.StatusCode {"
  +++ tabbed 1 ("case " +++ cm_status c +++ ":") +++ tabbed 2 ("response := &" +++ cm_name c +++ "Response{}")
  +++ each coutput_text (cm_outputs c) +++ tabbed 2 "return response, nil" +++ line ""
  +++ each (fun e => tabbed 1 ("case " +++ snd e +++ ":") +++ tabbed 2 ("var errEntity " +++ fst e) +++ reading "errEntity" +++ tabbed 2 "return nil, errEntity")
       (cm_exceptions c) +++ line ""
  +++ tabbed 1 "}" +++ line "   return nil,fmt.Errorf(""whoops"")" +++ line "}".
Definition client_text (pkg : string) (imports : list string) (client : string) (cs : list cmethod) : string :=
  line "//" +++ line "// Generated by sadl" +++ line "//" +++ line ("package " +++ pkg) +++ imports_text imports
  +++ line "" +++ line ("type " +++ client +++ " struct {") +++ tabbed 1 "Target string" +++ line "}" +++ line ""
  +++ line "func NewClient(target string) (*CrudlClient, error) {" +++ tabbed 1 "return &CrudlClient{" +++ tabbed 2 "Target: target,"
  +++ tabbed 1 "}, nil" +++ line "}" +++ each (cmethod_text client) cs +++ line "" +++ line "".

(** ** The methods of a model *)
Section Methods.
Context (sch : schema) (runtime : bool).
(** the base type of a type, empty if it has none *)
Definition based (n b : string) : Prop := (exists ts, defines sch n ts /\ b = ts_type ts) \/ (~ known sch n /\ b = "").
Definition floats : list string := ["Float32"; "Float64"; "Decimal"].
(** what a field is compared with, and the verb that prints it *)
Inductive plain_form (b : string) : string -> string -> Prop :=
| pf_string : b = "String" -> plain_form b """""" "%s"
| pf_int : In b ints -> plain_form b "0" "%d"
| pf_float : In b floats -> plain_form b "0.0" "&g"
| pf_bool : b = "Bool" -> plain_form b "false" "%v"
| pf_other : ~ In b (["String"; "Bool"] ++ ints ++ floats) -> plain_form b "nil" "%v".
Inductive queries_shown : list paramspec -> list cquery -> Prop :=
| cq_nil : queries_shown [] []
| cq_skip p ps l : ps_query p = "" -> queries_shown ps l -> queries_shown (p :: ps) l
| cq_put p ps l f b z v : ps_query p <> "" -> large_first (fd_name (ps_field p)) f -> based (ts_type (fd_spec (ps_field p))) b -> plain_form b z v ->
    queries_shown ps l -> queries_shown (p :: ps) (mkCQ f z (fd_name (ps_field p)) v :: l).
(** the first input in the body, for some methods only *)
Definition sent_body (h : httpdef) (b : option string) : Prop :=
  match b with
  | Some f => with_entity (h_method h) /\ exists a p r, h_inputs h = a ++ p :: r /\ none in_body a /\ in_body p /\ large_first (fd_name (ps_field p)) f
  | None => with_entity (h_method h) -> none in_body (h_inputs h)
  end.
Inductive output_shown (p : paramspec) : coutput -> Prop :=
| os_body f t : ps_header p = "" -> large_first (fd_name (ps_field p)) f -> go_name sch runtime (ts_type (fd_spec (ps_field p))) t -> output_shown p (OutBody f t)
| os_header f k t time : ps_header p <> "" -> large_first (fd_name (ps_field p)) f -> literal k (ps_header p) ->
    go_name sch runtime (ts_type (fd_spec (ps_field p))) t -> (time = true <-> t = "*Timestamp") -> output_shown p (OutHeader f k time).
Definition method_shown (h : httpdef) (c : cmethod) : Prop :=
  exists x, h_expected h = Some x /\ large_first (h_name h) (cm_name c)
  /\ cm_method c = h_method h /\ path_part (h_path h) (cm_route c)
  /\ queries_shown (h_inputs h) (cm_query c) /\ sent_body h (cm_body c)
  /\ numeral (cm_status c) (xp_status x) /\ Forall2 output_shown (xp_outputs x) (cm_outputs c)
  /\ Forall2 (fun e ts => go_name sch runtime (xc_type e) (fst ts) /\ numeral (snd ts) (xc_status e)) (h_exceptions h) (cm_exceptions c).
End Methods.

(** ** Its imports *)
Definition client_packages : list string := ["encoding/json"; "fmt"; "net/http"; "strings"].
Definition bytes_package : string := "bytes".
Definition sends_body (h : httpdef) : Prop := with_entity (h_method h) /\ exists p, In p (h_inputs h) /\ in_body p.
Definition outputs_of (h : httpdef) : list paramspec := match h_expected h with Some x => xp_outputs x | None => [] end.
Definition client_use (sch : schema) (runtime : bool) (h : httpdef) : Prop :=
  (exists p, In p (outputs_of h) /\ sadl_use sch runtime (ts_type (fd_spec (ps_field p)))) \/ (exists e, In e (h_exceptions h) /\ sadl_use sch runtime (xc_type e)).

(** ** When there is no client *)
Inductive client_fails (sch : schema) : Prop :=
| cf_expected h : In h (sc_http sch) -> h_expected h = None -> client_fails sch
| cf_output h x p : In h (sc_http sch) -> h_expected h = Some x -> In p (xp_outputs x) -> no_name sch (ts_type (fd_spec (ps_field p))) -> client_fails sch
| cf_exception h e : In h (sc_http sch) -> In e (h_exceptions h) -> no_name sch (xc_type e) -> client_fails sch.
