(** C94-C97: traces of requests and answers. *)
From Verif Require Import GoStr Outcome Value Schema Scalars Time Model Misc ParserValidate Scan Parser HttpTrace Swagger Trace
  SpecTime SpecModel SpecMisc SpecPV SpecParser SpecGen SpecTrace ModelFacts PVFacts Demo Lex FileFacts InvFacts InvNames ParsedFacts GenFacts PropsParser
  TraceFacts TraceText TraceFill.
From Coq Require Import Permutation.

Definition reorders (ord : list (string * exdata) -> list (string * exdata)) : Prop := forall l, Permutation (ord l) l.

(** A source with an action, two named requests, a response and an exception. *)
Definition trace_head : list string :=
  [ "type Item Struct {"; "  label String"; "}";
    "type Oops Struct {"; "  message String"; "}";
    "http PUT ""/items/{id}?tag={tag}&max={max}&dry={dry}"" (operation=putItem) {";
    "  id String"; "  tag String"; "  max Decimal"; "  dry Bool";
    "  who String (header=""X-Who"")";
    "  item Item";
    "  expect 200 { item Item";
    "    etag String (header=""ETag"")"; "  }";
    "  except 404 Oops";
    "}" ].
Definition trace_lines : list string := trace_head ++
  [ "example PutItemRequest (name=one) { ""id"": ""a"", ""who"": ""me"", ""max"": 5, ""item"": { ""label"": ""x"" } }";
    "example PutItemResponse (name=one) { ""item"": { ""label"": ""y"" }, ""etag"": ""t"" }";
    "example PutItemRequest (name=two) { ""id"": ""b"", ""who"": ""you"", ""tag"": ""z"", ""dry"": true, ""item"": { } }";
    "example Oops (name=two) { ""message"": ""no"" }" ].
Definition parse_of (l : list string) : model :=
  match parse_sadl_string demo_ext no_files 0 9 (src l) with Ok m => m | _ => mkModel (schema_of [] []) [] [] end.
Definition http_of (l : list string) : httpdef := hd (mkHttp "" "" "" [] "" "" [] None []) (sc_http (m_schema (parse_of l))).
Ltac parsed := split; [vm_compute; reflexivity|].

(** stand-ins for what is left open *)
Definition toy_number (d : decimal) : string := "5".
Definition toy_json (v : value) : string :=
  match v with VMap ((k, _) :: _) => "{" +++ k +++ "...}" | VPStr s => s | _ => "null" end.
Definition toy_status (z : Z) : string := if (z =? 200)%Z then "OK" else "Not Found".
Definition toy_date (action example : string) : string := "now".

(** ** C94 *)
Theorem C94_trace_exact : forall dec_text pretty_text status_text date ord, reorders ord -> forall m s,
  export_trace dec_text pretty_text status_text date ord m = Ok s -> exists xss,
  Forall2 (action_shown dec_text pretty_text status_text date (sc_examples (m_schema m))) (sc_http (m_schema m)) xss
  /\ s = fold_right (fun hx acc => exchanges_text (h_name (fst hx)) (snd hx) +++ newline +++ acc) "" (combine (sc_http (m_schema m)) xss).
Proof. intros dt pt st da ord O m s. exact (export_spec dt pt st da ord O m s). Qed.
Print Assumptions C94_trace_exact.
Example C94_trace_case :
  parse_sadl_string demo_ext no_files 0 9 (src trace_lines) = Ok (parse_of trace_lines)
  /\ export_trace toy_number toy_json toy_status toy_date (fun l => rev l) (parse_of trace_lines)
     = Ok (lines [ "#"; "# two (action=putItem)"; "#"; "#   Request:";
                   "PUT /items/b?tag=z HTTP/1.1"; "X-Who: you"; "Accept: application/json"; ""; "null";
                   "#   Response:"; "HTTP/1.1 404 Not Found"; "Content-Length: 12"; "Content-Type: application/json; charset=utf-8";
                   "Date: now"; ""; "{message...}";
                   "#"; "# one (action=putItem)"; "#"; "#   Request:";
                   "PUT /items/a?max=5 HTTP/1.1"; "X-Who: me"; "Accept: application/json"; ""; "{label...}";
                   "#   Response:"; "HTTP/1.1 200 OK"; "Content-Length: 10"; "Content-Type: application/json; charset=utf-8";
                   "ETag: t"; "Date: now"; ""; "{label...}"; "" ]).
Proof. parsed. vm_compute. reflexivity. Qed.

(** Where a name has no example of an exception, the answer is its response with the expected status; where it has
    no response, the exception with its status. *)
Theorem C94_answers_partial : forall dec_text pretty_text status_text date h n exs m,
  answer_shown dec_text pretty_text status_text date h n exs (Some m) ->
  ((forall ex, In ex exs -> ~ failure_named h n ex) ->
     exists ex l x, In ex exs /\ for_response h ex /\ ex_name ex = n /\ ex_example ex = VMap l /\ h_expected h = Some x
       /\ response_shown dec_text pretty_text status_text date h n x l m)
  /\ ((forall ex, In ex exs -> for_response h ex -> ex_name ex <> n) ->
     exists ex l e, In ex exs /\ for_exception h ex e /\ ex_name ex = n /\ ex_example ex = VMap l
       /\ exception_shown pretty_text status_text date h n e l m).
Proof.
  intros dt pt st da h n exs m (ex & l & x & L & El & Ex & D). pose proof (last_in _ _ _ L) as [I [A En]]. split.
  - intros N. assert (R : for_response h ex).
    { destruct A as [R|F]; [exact R|]. destruct (N ex I). now split. }
    exists ex, l, x. do 5 (split; [assumption|]).
    destruct D as [[_ S]|(ex' & e & L' & _)]; [exact S|]. apply last_in in L' as [I' F']. destruct (N ex' I' F').
  - intros N. destruct D as [[Nf _]|(ex' & e & L' & Fe & S)].
    + destruct A as [R|F]; [destruct (N ex I R En)|]. destruct (Nf ex I). now split.
    + assert (L2 : last_that (answer_named h n) exs ex').
      { destruct L' as (l1 & l2 & E & (F & En') & Nf). exists l1, l2. split; [exact E|]. split; [split; [now right|exact En']|].
        intros y Iy [[R|F'] Ey]; [|apply (Nf y Iy); now split].
        apply (N y); [rewrite E; apply in_or_app; right; now right|exact R|exact Ey]. }
      rewrite <- (last_fun _ _ _ _ L L2) in Fe. exists ex, l, e. auto 6.
Qed.
Print Assumptions C94_answers_partial.
(** An exception before a response of the same name: the response's data under the exception's status. *)
Definition mixed_lines : list string := trace_head ++
  [ "example PutItemRequest (name=one) { ""id"": ""a"", ""who"": ""me"", ""item"": { ""label"": ""x"" } }";
    "example Oops (name=one) { ""message"": ""no"" }";
    "example PutItemResponse (name=one) { ""item"": { ""label"": ""y"" }, ""etag"": ""t"" }" ].
Theorem C94_answers_refuted : exists toks m h ex rq msg,
  parse_sadl_string demo_ext no_files 0 9 toks = Ok m /\ In h (sc_http (m_schema m))
  /\ In ex (sc_examples (m_schema m)) /\ for_response h ex
  /\ http_trace toy_number toy_json toy_status toy_date (fun l => l) m h = Ok (exchange_text (h_name h) (mkXg "one" rq (Some msg)))
  /\ ms_start msg = "HTTP/1.1 404 Not Found" /\ ms_body msg = toy_json (ex_example ex).
Proof.
  exists (src mixed_lines), (parse_of mixed_lines), (http_of mixed_lines),
    (mkEx "PutItemResponse" "one" (VMap [("item", VMap [("label", VPStr "y")]); ("etag", VPStr "t")]) "" []),
    (mkMsg "PUT /items/a HTTP/1.1" [("X-Who", "me"); ("Accept", "application/json")] "{label...}"),
    (mkMsg "HTTP/1.1 404 Not Found" [("Content-Length", "9"); json_type; ("Date", "now")] "{item...}").
  parsed. split; [vm_compute; auto|]. split; [vm_compute; auto|]. split; [apply response_iff; vm_compute; reflexivity|].
  split; [vm_compute; reflexivity|]. split; reflexivity.
Qed.
Print Assumptions C94_answers_refuted.

(** ** C95 *)
Theorem C95_crash_exact : forall dec_text pretty_text status_text date ord, reorders ord -> forall m,
  (export_trace dec_text pretty_text status_text date ord m = Panic <->
   exists h, In h (sc_http (m_schema m)) /\ untraceable (sc_examples (m_schema m)) h)
  /\ (export_trace dec_text pretty_text status_text date ord m = Panic
      \/ exists s, export_trace dec_text pretty_text status_text date ord m = Ok s).
Proof.
  intros dt pt st da ord O m. split; [exact (export_panic dt pt st da ord O m)|exact (export_total dt pt st da ord m)].
Qed.
Print Assumptions C95_crash_exact.

Lemma struct_object X sch ts v : accepts X sch ts v -> ts_type ts = "Struct" -> exists l, v = VMap l.
Proof.
  intros A E. destruct A; try congruence; [eexists; reflexivity| |].
  - rewrite E in *. cbn in *. intuition discriminate.
  - destruct H as [H _]. rewrite E in H. destruct H. simpl. tauto.
Qed.
Lemma traceable X sch m h : new_model sch = Ok m -> (forall ex, In ex (sc_examples sch) -> example_ok X sch ex) ->
  h_expected h <> None ->
  (forall t ts, for_part h "Request" t \/ for_part h "Response" t -> ~ target_type sch t ts) ->
  (forall e, In e (h_exceptions h) -> exists ts, defines sch (xc_type e) ts /\ ts_type ts = "Struct") ->
  ~ untraceable (sc_examples sch) h.
Proof.
  intros M Ok Ex Nt Se U.
  assert (Rq : forall ex, In ex (sc_examples sch) -> for_request h ex -> ~ not_object ex).
  { intros ex I F N. destruct (Ok ex I) as [(ts & T & _)|(_ & [(h' & _ & l & E & _)|(_ & h' & x & _ & _ & l & E & _)])].
    - apply (Nt _ ts (or_introl F) T).
    - exact (N l E).
    - exact (N l E). }
  assert (An : forall ex n, In ex (sc_examples sch) -> answer_named h n ex -> ~ not_object ex).
  { intros ex n I [A _] N. destruct A as [[_ R]|(e & Nr & Ns & L)].
    - destruct (Ok ex I) as [(ts & T & _)|(_ & [(h' & _ & l & E & _)|(_ & h' & x & _ & _ & l & E & _)])].
      + apply (Nt _ ts (or_intror R) T).
      + exact (N l E).
      + exact (N l E).
    - apply last_in in L as [Ie Te]. destruct (Se e Ie) as (ts & D & S). rewrite Te in D.
      destruct (Ok ex I) as [(ts' & T & A)|(Nn & _)]; [|apply Nn; exists ts; now constructor].
      assert (ts' = ts).
      { destruct T as [n0 ts' D'|t f ts0 fs1 fd fs2 Nd]; [apply (defines_fun sch m M _ _ _ D' D)|]. destruct (Nd _ D). }
      subst ts'. destruct (struct_object X sch ts _ A S) as [l E]. exact (N l E). }
  destruct U as [(ex & I & F & N)|(ex & ex' & I & F & I' & A & [N|C])].
  - exact (Rq ex I F N).
  - exact (An ex' _ I' A N).
  - contradiction.
Qed.
Theorem C95_parsed_partial : forall dec_text pretty_text status_text date ord, reorders ord ->
  forall X E, files_have_text E -> forall d v m,
  (exists toks, symbols_have_text toks /\ parse_sadl_string X E d v toks = Ok m) \/ (exists f, parse_sadl_file X E d v f = Ok m) ->
  (forall h, In h (sc_http (m_schema m)) ->
     h_expected h <> None
     /\ (forall t ts, for_part h "Request" t \/ for_part h "Response" t -> ~ target_type (m_schema m) t ts)
     /\ (forall e, In e (h_exceptions h) -> exists ts, defines (m_schema m) (xc_type e) ts /\ ts_type ts = "Struct")) ->
  exists s, export_trace dec_text pretty_text status_text date ord m = Ok s.
Proof.
  intros dt pt st da ord O X E FE d v m HP H. destruct (export_total dt pt st da ord m) as [C|G]; [|exact G].
  apply (export_panic dt pt st da ord O) in C as (h & I & U). exfalso. destruct (H h I) as (A & B & D).
  assert (M : new_model (m_schema m) = Ok m) by (apply (parsed_ok X E FE d v m HP)).
  revert U. apply (traceable X (m_schema m) m h M); auto. intros ex. apply (parsed_checked X E FE d v m HP).
Qed.
Print Assumptions C95_parsed_partial.
(** [trace_lines] meets the hypotheses. *)
Example C95_parsed_case : symbols_have_text (src trace_lines) /\ forall h, In h (sc_http (m_schema (parse_of trace_lines))) ->
  h_expected h <> None
  /\ (forall t ts, for_part h "Request" t \/ for_part h "Response" t -> ~ target_type (m_schema (parse_of trace_lines)) t ts)
  /\ (forall e, In e (h_exceptions h) -> exists ts, defines (m_schema (parse_of trace_lines)) (xc_type e) ts /\ ts_type ts = "Struct").
Proof.
  split; [apply symbols_by_test; vm_compute; reflexivity|]. intros h I. set (sch := m_schema (parse_of trace_lines)) in *.
  assert (M : new_model sch = Ok (parse_of trace_lines)) by (vm_compute; reflexivity).
  assert (E : h = http_of trace_lines) by (vm_compute in I; destruct I as [<- |[]]; vm_compute; reflexivity).
  subst h. split; [vm_compute; discriminate|]. split.
  - intros t ts F T. apply (example_spec_iff sch _ M) in T.
    destruct F as [F|F]; apply for_part_iff in F; vm_compute in F; subst t; vm_compute in T; discriminate.
  - intros e Ie. vm_compute in Ie. destruct Ie as [<- |[]].
    assert (T : match find_type (parse_of trace_lines) "Oops" with Some td => ts_type (td_spec td) = "Struct" | None => False end)
      by (vm_compute; reflexivity).
    destruct (find_type (parse_of trace_lines) "Oops") as [td|] eqn:F; [|destruct T].
    exists (td_spec td). split; [|exact T]. apply (find_type_defines sch _ M). exists td. split; [exact F|reflexivity].
Qed.

(** Sources that are accepted but cannot be traced: an exception type that is a string; an example of an exception of an
    action without [expect]; a type with the name of a request. *)
Definition crash_string : list string :=
  [ "type Msg String"; "http GET ""/a"" (operation=getA) {"; "  expect 200 { a String"; "  }"; "  except 404 Msg"; "}";
    "example GetARequest (name=one) { }"; "example Msg (name=one) ""no""" ].
Definition crash_expect : list string :=
  [ "type Oops Struct {"; "  message String"; "}"; "http GET ""/a"" (operation=getA) {"; "  except 404 Oops"; "}";
    "example GetARequest (name=one) { }"; "example Oops (name=one) { ""message"": ""no"" }" ].
Definition crash_type : list string :=
  [ "type GetARequest String"; "http GET ""/a"" (operation=getA) {"; "  expect 200 { a String"; "  }"; "}";
    "example GetARequest (name=one) ""x""" ].
Theorem C95_parsed_refuted : forall l, In l [crash_string; crash_expect; crash_type] -> exists m,
  symbols_have_text (src l) /\ parse_sadl_string demo_ext no_files 0 9 (src l) = Ok m
  /\ forall dec_text pretty_text status_text date ord, reorders ord ->
       export_trace dec_text pretty_text status_text date ord m = Panic.
Proof.
  intros l I. exists (parse_of l). split; [|split].
  - destruct I as [<- |[<- |[<- |[]]]]; apply symbols_by_test; vm_compute; reflexivity.
  - destruct I as [<- |[<- |[<- |[]]]]; vm_compute; reflexivity.
  - intros dt pt st da ord O. apply (export_panic dt pt st da ord O). exists (http_of l).
    destruct I as [<- |[<- |[<- |[]]]]; (split; [vm_compute; auto|]).
    + right. exists (mkEx "GetARequest" "one" (VMap []) "" []), (mkEx "Msg" "one" (VPStr "no") "" []).
      split; [vm_compute; auto|]. split; [apply request_iff; vm_compute; reflexivity|]. split; [vm_compute; auto|].
      split; [|left; intros l; discriminate]. split; [|reflexivity]. apply answer_iff. split; [vm_compute; discriminate|]. vm_compute. auto.
    + right. exists (mkEx "GetARequest" "one" (VMap []) "" []), (mkEx "Oops" "one" (VMap [("message", VPStr "no")]) "" []).
      split; [vm_compute; auto|]. split; [apply request_iff; vm_compute; reflexivity|]. split; [vm_compute; auto|].
      split; [|right; vm_compute; reflexivity]. split; [|reflexivity]. apply answer_iff. split; [vm_compute; discriminate|]. vm_compute. auto.
    + left. exists (mkEx "GetARequest" "one" (VPStr "x") "" []). split; [vm_compute; auto|].
      split; [apply request_iff; vm_compute; reflexivity|intros l; discriminate].
Qed.
Print Assumptions C95_parsed_refuted.

(** ** C96 *)
Theorem C96_line_partial : forall dec_text pretty_text h l val s msg,
  values_for dec_text (h_inputs h) l val -> plain_lines (h_inputs h) val -> filled val (h_path h) s ->
  request_shown dec_text pretty_text h l msg ->
  exists t, stripped s t /\ ms_start msg = h_method h +++ " " +++ t +++ " HTTP/1.1".
Proof. intros dt pt h l val s msg. exact (request_line dt pt h l val s msg). Qed.
Print Assumptions C96_line_partial.
Theorem C96_query_partial : forall dec_text pretty_text h l val p p' ks msg,
  values_for dec_text (h_inputs h) l val -> plain_lines (h_inputs h) val ->
  (forall n, no_char "?" n -> no_char "?" (val n)) ->
  no_char "?" p -> filled val p p' -> ks <> [] -> Forall item_ok ks ->
  (forall kn, In kn ks -> no_char "&" (val (snd kn)) /\ ~ exists w, val (snd kn) = w +++ "=") ->
  h_path h = p +++ "?" +++ join "&" (map item_text ks) ->
  request_shown dec_text pretty_text h l msg ->
  exists t kept, ms_start msg = h_method h +++ " " +++ t +++ " HTTP/1.1" /\ target t p' kept
    /\ without (fun x => has_value x "") (map (item_value val) ks) kept.
Proof. intros dt pt h l val p p' ks msg. exact (request_query dt pt h l val p p' ks msg). Qed.
Print Assumptions C96_query_partial.

(** The first request of [trace_lines]. *)
Definition one_values : list (string * value) :=
  [("id", VPStr "a"); ("who", VPStr "me"); ("max", VDec (DFin 5 0)); ("item", VMap [("label", VPStr "x")])].
Definition one_val (n : string) : string :=
  if n =?s "id" then "a" else if n =?s "max" then "5" else if n =?s "tag" then "" else if n =?s "dry" then "" else "{" +++ n +++ "}".
Lemma entry_is l n v : entry l n v -> v = example_at l n.
Proof. intros H. exact (entry_fun l n v _ H (entry_of l n)). Qed.
Lemma shown_is d v : shown d v (string_example d v).
Proof. apply shown_of. Qed.
Ltac braces := repeat split; apply no_char_smem; reflexivity.
Example C96_case : exists msg, request_text toy_number toy_json (http_of trace_lines) one_values = message_text msg
  /\ values_for toy_number (h_inputs (http_of trace_lines)) one_values one_val
  /\ plain_lines (h_inputs (http_of trace_lines)) one_val
  /\ (forall n, no_char "?" n -> no_char "?" (one_val n))
  /\ filled one_val "/items/{id}" "/items/a"
  /\ Forall item_ok [("tag", "tag"); ("max", "max"); ("dry", "dry")]
  /\ h_path (http_of trace_lines) = "/items/{id}" +++ "?" +++ join "&" (map item_text [("tag", "tag"); ("max", "max"); ("dry", "dry")])
  /\ request_shown toy_number toy_json (http_of trace_lines) one_values msg
  /\ ms_start msg = "PUT /items/a?max=5 HTTP/1.1".
Proof.
  destruct (request_text_spec toy_number toy_json toy_date (http_of trace_lines) one_values) as (msg & E & R).
  assert (L : forall p, In p (h_inputs (http_of trace_lines)) -> in_line p -> In (name_of p) ["id"; "tag"; "max"; "dry"]).
  { intros p Ip Il. assert (A : forallb (fun p => implb (ps_path p || negb (ps_query p =?s ""))
      (existsb (String.eqb (name_of p)) ["id"; "tag"; "max"; "dry"])) (h_inputs (http_of trace_lines)) = true) by (vm_compute; reflexivity).
    rewrite forallb_forall in A. specialize (A p Ip). apply in_line_iff in Il. rewrite Il in A. cbn [implb] in A.
    apply existsb_exists in A as (x & Ix & E'). apply String.eqb_eq in E'. rewrite E'. exact Ix. }
  assert (V : values_for toy_number (h_inputs (http_of trace_lines)) one_values one_val).
  { split.
    - intros p v Ip Il En. apply entry_is in En. subst v. specialize (L p Ip Il). generalize dependent (name_of p).
      intros n J. destruct J as [<- |[<- |[<- |[<- |[]]]]].
      + exact (sh_string toy_number "a").
      + apply (sh_other toy_number VNil); intros ?; discriminate.
      + exact (sh_number toy_number (DFin 5 0)).
      + apply (sh_other toy_number VNil); intros ?; discriminate.
    - intros n N. assert (M : forall k, In k ["id"; "tag"; "max"; "dry"] -> n <> k).
      { intros k Ik ->. assert (A : forallb (fun k => existsb (fun p => (name_of p =?s k) && (ps_path p || negb (ps_query p =?s "")))
          (h_inputs (http_of trace_lines))) ["id"; "tag"; "max"; "dry"] = true) by (vm_compute; reflexivity).
        rewrite forallb_forall in A. specialize (A k Ik). apply existsb_exists in A as (p & Ip & A).
        apply andb_true_iff in A as [A B]. apply seqb_eq in A. apply in_line_iff in B. exact (N p Ip B A). }
      unfold one_val. rewrite (proj2 (seqb_neq n "id")), (proj2 (seqb_neq n "max")), (proj2 (seqb_neq n "tag")), (proj2 (seqb_neq n "dry"));
        [reflexivity|apply M; cbn; auto ..]. }
  assert (P : plain_lines (h_inputs (http_of trace_lines)) one_val).
  { intros p Ip Il. specialize (L p Ip Il). generalize dependent (name_of p).
    intros n J. destruct J as [<- |[<- |[<- |[<- |[]]]]]; braces. }
  assert (Q : forall n, no_char "?" n -> no_char "?" (one_val n)).
  { intros n N. unfold one_val. repeat match goal with |- context [n =?s ?k] => destruct (n =?s k); [braces|] end.
    apply no_char_app. split; [braces|]. apply no_char_app. split; [exact N|braces]. }
  assert (F : filled one_val "/items/{id}" "/items/a").
  { apply (fl_var one_val "/items/" "id" "" ""); [braces|braces|braces|]. apply fl_end. braces. }
  assert (K : Forall item_ok [("tag", "tag"); ("max", "max"); ("dry", "dry")]) by (repeat constructor; cbn; braces).
  exists msg. split; [exact E|]. split; [exact V|]. split; [exact P|]. split; [exact Q|]. split; [exact F|]. split; [exact K|].
  split; [vm_compute; reflexivity|]. split; [exact R|].
  destruct R as ((s & t & A & S & St) & _). rewrite St.
  assert (A' : s = "/items/a?tag=&max=5&dry=").
  { refine (put_in_filled toy_number one_values one_val _ _ "/items/a?tag=&max=5&dry=" s V P _ A).
    change (h_path (http_of trace_lines)) with ("/items/{id}" +++ "?" +++ join "&" (map item_text [("tag", "tag"); ("max", "max"); ("dry", "dry")])).
    apply (filled_app one_val "/items/{id}" "/items/a"); [exact F|]. apply (filled_app one_val "?" "?"); [apply fl_end; braces|].
    apply (filled_items one_val [("tag", "tag"); ("max", "max"); ("dry", "dry")]); [discriminate|exact K]. }
  subst s. destruct (stripped_some "/items/a?tag=&max=5&dry=") as (p1 & i1 & k1 & T1 & W1 & T1'). destruct S as (p2 & i2 & k2 & T2 & W2 & T2').
  destruct (target_fun _ _ _ _ _ T1 T2) as [-> ->]. rewrite (without_unique _ _ _ W1 _ W2) in T1'.
  assert (G : t = strip_missing "/items/a?tag=&max=5&dry=").
  { clear - T1' T2'. destruct T2' as [p2 N|p2 i l N F]; remember (strip_missing _) as u; inversion T1'; subst; reflexivity. }
  subst t. reflexivity.
Qed.

(** The lines that are not as the values say. *)
Definition again_lines : list string :=
  [ "http GET ""/a/{x}/{y}"" (operation=getA) {"; "  x String"; "  y String"; "  expect 200 { a String"; "  }"; "}";
    "example GetARequest (name=one) { ""x"": ""{y}"", ""y"": ""1"" }" ].
Definition amp_lines : list string :=
  [ "http GET ""/a?x={x}&y={y}"" (operation=getA) {"; "  x String"; "  y String"; "  expect 200 { a String"; "  }"; "}";
    "example GetARequest (name=one) { ""x"": ""1&y=2"" }" ].
Definition bool_lines : list string :=
  [ "http GET ""/a?x={x}"" (operation=getA) {"; "  x Bool"; "  expect 200 { a String"; "  }"; "}";
    "example GetARequest (name=one) { ""x"": true }" ].
Definition first_block (start : string) : string :=
  lines [ "#"; "# one (action=getA)"; "#"; "#   Request:"; start; "Accept: application/json"; ""; "" ].
Definition again_val (n : string) : string := if n =?s "x" then "{y}" else "1".
(** a value with braces is filled in again *)
Theorem C96_again_refuted : exists toks m h val,
  parse_sadl_string demo_ext no_files 0 9 toks = Ok m /\ In h (sc_http (m_schema m))
  /\ val "x" = "{y}" /\ val "y" = "1" /\ filled val (h_path h) "/a/{y}/1"
  /\ forall dec_text pretty_text status_text date,
       http_trace dec_text pretty_text status_text date (fun l => l) m h = Ok (first_block "GET /a/1/1 HTTP/1.1").
Proof.
  exists (src again_lines), (parse_of again_lines), (http_of again_lines), again_val.
  parsed. split; [vm_compute; auto|]. split; [reflexivity|]. split; [reflexivity|]. split.
  - change (h_path (http_of again_lines)) with ("/a/" +++ "{" +++ "x" +++ "}" +++ "/" +++ "{" +++ "y" +++ "}" +++ "").
    apply (fl_var again_val "/a/" "x" ("/" +++ "{" +++ "y" +++ "}" +++ "") "/1"); [braces|braces|braces|].
    apply (fl_var again_val "/" "y" "" ""); [braces|braces|braces|]. apply fl_end. braces.
  - intros. vm_compute. reflexivity.
Qed.
Print Assumptions C96_again_refuted.
(** a value with an ampersand becomes another item of the query *)
Theorem C96_ampersand_refuted : exists toks m h,
  parse_sadl_string demo_ext no_files 0 9 toks = Ok m /\ In h (sc_http (m_schema m))
  /\ map ex_example (sc_examples (m_schema m)) = [VMap [("x", VPStr "1&y=2")]]
  /\ target "/a?x=1&y=2" "/a" ["x=1"; "y=2"]
  /\ forall dec_text pretty_text status_text date,
       http_trace dec_text pretty_text status_text date (fun l => l) m h = Ok (first_block "GET /a?x=1&y=2 HTTP/1.1").
Proof.
  exists (src amp_lines), (parse_of amp_lines), (http_of amp_lines).
  parsed. split; [vm_compute; auto|]. split; [vm_compute; reflexivity|]. split.
  - apply (tg_query "/a" "x=1" ["y=2"]); [braces|]. intros x [<- |[<- |[]]]; braces.
  - intros. vm_compute. reflexivity.
Qed.
Print Assumptions C96_ampersand_refuted.
(** a truth value is left out *)
Theorem C96_bool_refuted : exists toks m h,
  parse_sadl_string demo_ext no_files 0 9 toks = Ok m /\ In h (sc_http (m_schema m))
  /\ map ex_example (sc_examples (m_schema m)) = [VMap [("x", VBool true)]]
  /\ forall dec_text pretty_text status_text date,
       http_trace dec_text pretty_text status_text date (fun l => l) m h = Ok (first_block "GET /a HTTP/1.1").
Proof.
  exists (src bool_lines), (parse_of bool_lines), (http_of bool_lines).
  parsed. split; [vm_compute; auto|]. split; [vm_compute; reflexivity|]. intros. vm_compute. reflexivity.
Qed.
Print Assumptions C96_bool_refuted.

(** ** C97 *)
Theorem C97_reading_unique : forall s m m', reads_as s m -> reads_as s m' -> m = m'.
Proof. exact reads_fun. Qed.
Print Assumptions C97_reading_unique.
Theorem C97_request_partial : forall dec_text pretty_text h l msg,
  request_shown dec_text pretty_text h l msg -> no_char "010" (h_method h) -> no_char "010" (h_path h) ->
  (forall p, In p (h_inputs h) -> in_header p -> header_name (ps_header p)) ->
  (forall p v t, In p (h_inputs h) -> entry l (name_of p) v -> shown dec_text v t -> no_char "010" t) ->
  reads_as (message_text msg) msg.
Proof. intros dt pt h l msg. exact (request_reads dt pt h l msg). Qed.
Print Assumptions C97_request_partial.
Theorem C97_answer_partial : forall dec_text pretty_text status_text date h n exs msg,
  answer_shown dec_text pretty_text status_text date h n exs (Some msg) ->
  (forall z, no_char "010" (status_text z)) -> (forall a b, no_char "010" (date a b)) ->
  (forall x p, h_expected h = Some x -> In p (xp_outputs x) -> ps_header p <> "" -> header_name (ps_header p)) ->
  (forall ex l p x v t, In ex exs -> ex_example ex = VMap l -> h_expected h = Some x -> In p (xp_outputs x) ->
     entry l (name_of p) v -> shown dec_text v t -> no_char "010" t) ->
  reads_as (message_text msg) msg.
Proof. intros dt pt st da h n exs msg. exact (answer_reads dt pt st da h n exs msg). Qed.
Print Assumptions C97_answer_partial.
(** The length that an answer states is that of its body. *)
Theorem C97_length : forall dec_text pretty_text status_text date h n exs msg,
  answer_shown dec_text pretty_text status_text date h n exs (Some msg) ->
  exists v, hd_error (ms_headers msg) = Some ("Content-Length", v) /\ numeral v (Z.of_nat (String.length (ms_body msg))).
Proof.
  intros dt pt st da h n exs msg (ex & l & x & _ & _ & _ & [(_ & (hs & _ & _ & v & N & E) & _)|(ex' & e & _ & _ & (_ & v & N & E) & _)]);
    exists v; rewrite E; auto.
Qed.
Print Assumptions C97_length.
Definition break_lines : list string :=
  [ "http GET ""/a"" (operation=getA) {"; "  who String (header=""X-Who"")"; "  expect 200 { a String"; "  }"; "}";
    "example GetARequest (name=one) { ""who"": ""me\nX-Admin: yes"" }" ].
Theorem C97_header_refuted : exists toks m h msg,
  parse_sadl_string demo_ext no_files 0 9 toks = Ok m /\ In h (sc_http (m_schema m))
  /\ map ps_header (h_inputs h) = ["X-Who"]
  /\ In ("X-Admin", "yes") (ms_headers msg)
  /\ exists text, reads_as text msg
     /\ forall dec_text pretty_text status_text date,
          http_trace dec_text pretty_text status_text date (fun l => l) m h
          = Ok (lines ["#"; "# one (action=getA)"; "#"; "#   Request:"] +++ text +++ newline).
Proof.
  exists (src break_lines), (parse_of break_lines), (http_of break_lines),
    (mkMsg "GET /a HTTP/1.1" [("X-Who", "me"); ("X-Admin", "yes"); ("Accept", "application/json")] "").
  parsed. split; [vm_compute; auto|]. split; [vm_compute; reflexivity|]. split; [right; left; reflexivity|].
  exists (lines ["GET /a HTTP/1.1"; "X-Who: me"; "X-Admin: yes"; "Accept: application/json"; ""]). split.
  - apply (message_reads (mkMsg "GET /a HTTP/1.1" [("X-Who", "me"); ("X-Admin", "yes"); ("Accept", "application/json")] "")).
    + braces.
    + repeat constructor; cbn; try discriminate; braces.
  - intros. vm_compute. reflexivity.
Qed.
Print Assumptions C97_header_refuted.
