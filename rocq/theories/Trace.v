(** httptrace/export_http_examples.go: the trace of requests and answers. *)
From Verif Require Import GoStr Outcome Value Schema Misc Model Time HttpTrace Swagger.

(** export_http_examples.go:36-40 *)
Record exdata := mkExData { xd_req : list (string * value); xd_exc : option exceptionspec; xd_res : option (list (string * value)) }.

Section Trace.
(** [Decimal.String], [sadl.Pretty] of one value, [http.StatusText], the Date header of one block of one action, and the
    order in which the entries of [namedExamples] are met. *)
Context (dec_text : decimal -> string) (pretty_text : value -> string) (status_text : Z -> string)
  (date : string -> string -> string) (ord : list (string * exdata) -> list (string * exdata)).

(** export_http_examples.go:26-34 *)
Definition string_example (v : value) : string :=
  match v with VPStr s => s | VDec d => dec_text d | _ => "" end.

(** [m[k]] of a map[string]interface{} *)
Definition example_at (l : list (string * value)) (k : string) : value :=
  match assoc k l with Some v => v | None => VNil end.

(** [ex.Example.(map[string]interface{})] *)
Definition object_of (v : value) : result unit (list (string * value)) :=
  match v with VMap l => Ok l | _ => Panic end.

(** export_http_examples.go:50-55 *)
Fixpoint collect_requests (req_type : string) (exs : list exampledef) (acc : list (string * exdata))
  : result unit (list (string * exdata)) :=
  match exs with
  | [] => Ok acc
  | ex :: r =>
      if ex_target ex =?s req_type then
        l <- object_of (ex_example ex) ;;
        collect_requests req_type r (assoc_set (ex_name ex) (mkExData l None None) acc)
      else collect_requests req_type r acc
  end.
(** export_http_examples.go:63-68 *)
Fixpoint match_exceptions (excs : list exceptionspec) (ex : exampledef) (d : exdata) : result unit exdata :=
  match excs with
  | [] => Ok d
  | e :: r =>
      if xc_type e =?s ex_target ex then
        l <- object_of (ex_example ex) ;;
        match_exceptions r ex (mkExData (xd_req d) (Some e) (Some l))
      else match_exceptions r ex d
  end.
(** export_http_examples.go:56-72 *)
Fixpoint collect_answers (req_type res_type : string) (excs : list exceptionspec) (exs : list exampledef)
  (acc : list (string * exdata)) : result unit (list (string * exdata)) :=
  match exs with
  | [] => Ok acc
  | ex :: r =>
      if ex_target ex =?s req_type then collect_answers req_type res_type excs r acc
      else match assoc (ex_name ex) acc with
           | None => collect_answers req_type res_type excs r acc
           | Some d =>
               d' <- (if ex_target ex =?s res_type
                      then l <- object_of (ex_example ex) ;; Ok (mkExData (xd_req d) (xd_exc d) (Some l))
                      else match_exceptions excs ex d) ;;
               collect_answers req_type res_type excs r (assoc_set (ex_name ex) d' acc)
           end
  end.

(** export_http_examples.go:87-101: path, headers and body of a request *)
Fixpoint request_parts (l : list (string * value)) (ins : list paramspec) (path headers body : string)
  : string * string * string :=
  match ins with
  | [] => (path, headers, body)
  | p :: r =>
      let ex := example_at l (fd_name (ps_field p)) in
      if ps_path p || negb (ps_query p =?s "") then
        let old := "{" +++ fd_name (ps_field p) +++ "}" in
        request_parts l r (replace_all (S (String.length path)) old (string_example ex) path) headers body
      else if negb (ps_header p =?s "") then
        request_parts l r path (headers +++ ps_header p +++ ": " +++ string_example ex +++ nl) body
      else request_parts l r path headers (pretty_text ex)
  end.
(** export_http_examples.go:79-105 *)
Definition request_text (h : httpdef) (l : list (string * value)) : string :=
  let '(path, headers, body) := request_parts l (h_inputs h) (h_path h) "" "" in
  let path := strip_missing path in
  let headers := headers +++ "Accept: application/json" +++ nl in
  h_method h +++ " " +++ path +++ " HTTP/1.1" +++ nl +++ headers +++ nl +++ body.

(** export_http_examples.go:115-125 *)
Fixpoint response_parts (l : list (string * value)) (status : Z) (outs : list paramspec) (headers body : string)
  : string * string :=
  match outs with
  | [] => (headers, body)
  | p :: r =>
      let ex := example_at l (fd_name (ps_field p)) in
      if negb (ps_header p =?s "") then
        response_parts l status r (headers +++ ps_header p +++ ": " +++ string_example ex +++ nl) body
      else response_parts l status r headers (if negb (status =? 204)%Z then pretty_text ex else body)
  end.
(** export_http_examples.go:107-134; [hdef.Expected] may be nil *)
Definition response_text (h : httpdef) (name : string) (exc : option exceptionspec) (l : list (string * value)) : result unit string :=
  match h_expected h with
  | None => Panic
  | Some x =>
      let headers := "Content-Type: application/json; charset=utf-8" +++ nl in
      let '(status, headers, body) :=
        match exc with
        | None => let '(hs, b) := response_parts l (xp_status x) (xp_outputs x) headers "" in (xp_status x, hs, b)
        | Some e => (xc_status e, headers, pretty_text (VMap l))
        end in
      let headers := headers +++ "Date: " +++ date (h_name h) name +++ nl in
      let headers := "Content-Length: " +++ fmt_d (Z.of_nat (String.length body)) +++ nl +++ headers in
      Ok ("HTTP/1.1 " +++ fmt_d status +++ " " +++ status_text status +++ nl +++ headers +++ nl +++ body)
  end.

(** export_http_examples.go:74-137.  [reqExample != nil] always holds: the type assertion gave a map. *)
Fixpoint trace_blocks (h : httpdef) (named : list (string * exdata)) : result unit string :=
  match named with
  | [] => Ok ""
  | (n, d) :: r =>
      answer <- (match xd_res d with
                 | None => Ok ""
                 | Some l => s <- response_text h n (xd_exc d) l ;; Ok ("#   Response:" +++ nl +++ s +++ nl)
                 end) ;;
      rest <- trace_blocks h r ;;
      Ok ("#" +++ nl +++ "# " +++ n +++ " (action=" +++ h_name h +++ ")" +++ nl +++ "#" +++ nl
          +++ "#   Request:" +++ nl +++ request_text h (xd_req d) +++ nl +++ answer +++ rest)
  end.
(** export_http_examples.go:42-138 *)
Definition http_trace (m : model) (h : httpdef) : result unit string :=
  let exs := sc_examples (m_schema m) in
  let req_type := capitalize (h_name h) +++ "Request" in
  let res_type := capitalize (h_name h) +++ "Response" in
  named <- collect_requests req_type exs [] ;;
  named <- collect_answers req_type res_type (h_exceptions h) exs named ;;
  trace_blocks h (ord named).

(** export_http_examples.go:13-23: what is printed; [Panic]: the program stops after printing the traces before *)
Fixpoint trace_all (m : model) (hs : list httpdef) : result unit string :=
  match hs with
  | [] => Ok ""
  | h :: r => s <- http_trace m h ;; t <- trace_all m r ;; Ok (s +++ nl +++ t)
  end.
Definition export_trace (m : model) : result unit string := trace_all m (sc_http (m_schema m)).
End Trace.
