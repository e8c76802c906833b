(** C117-C119: the generated Java server and the generated Java client. *)
From Verif Require Import GoStr Outcome Value Schema Scalars Time Model Misc ParserValidate Scan Parser Generator Golang GoModel Java JavaModel JavaService
  SpecTime SpecModel SpecMisc SpecPV SpecParser SpecTrace SpecGo SpecGen SpecGoServer SpecJava SpecJavaService ModelFacts PVFacts Demo Lex FileFacts InvFacts InvNames ParsedFacts PropsParser TraceFacts PropsTrace PropsGo
  JavaFacts JavaText JavaFiles JavaGood PropsJava JavaServiceFacts JavaAgree.
From Coq Require Import Permutation.
Notation serve := JavaService.create_server.
Notation call_on := JavaService.create_client.
(** the files of the server and of the client for some options *)
Definition served (o : jopts) (sv : jservice) (sch : schema) : bool -> string -> list jresource -> list jout :=
  server_files GoServer.go_quote OpenApi.sprint (jo_immutable o) (jo_service_exception o) (sv_impl sv) (jo_header o) (jo_model_package o) (sv_package sv) (jo_name o) sch.
Definition called (o : jopts) (sv : jservice) (sch : schema) : string -> list jcall -> list jout :=
  client_files OpenApi.sprint (jo_header o) (jo_model_package o) (sv_client_package sv) sch.
Lemma adds_outs a b fs : adds a b fs -> outs b = outs a ++ fs.
Proof. intros (_ & l & F & M). unfold outs. rewrite F, map_app, M. reflexivity. Qed.

(** ** C117 *)
Theorem C117_server_exact : forall dec_text sch m, new_model sch = Ok m -> forall o sv st, js_err st = false ->
  (forall fuel st', serve dec_text m o sv fuel st = Ok st' -> js_err st' = false ->
     exists service rs b, server_shown dec_text (jo_instants o) (jo_name o) sch service rs /\ outs st' = outs st ++ served o sv sch b service rs
       /\ (b = true <-> js_instant st = true \/ uses_instant (jo_instants o) sch))
  /\ (forall service rs, server_shown dec_text (jo_instants o) (jo_name o) sch service rs -> exists f0, forall f, f0 <= f -> done (serve dec_text m o sv f st)).
Proof.
  intros dt sch m Hm o sv st E. split.
  - intros f st' H E'. destruct (server_spec dt sch m Hm o sv f st st' E H E') as (service & rs & b & S & A & B). exists service, rs, b. split; [exact S|]. split; [exact (adds_outs _ _ _ A)|exact B].
  - intros service rs S. destruct (server_fine dt sch m Hm o sv service rs S) as [f0 F]. exists f0. intros f L. exact (F f L st E).
Qed.
Print Assumptions C117_server_exact.
Definition store_lines : list string :=
  [ "name store"; "base ""/api"""; "type Item Struct {"; "  label String"; "}"; "type Oops Struct {"; "  message String"; "}"; "type Gone Struct {"; "  message String"; "}";
    "http GET ""/items/{id}?limit={limit}"" (operation=getItem) {"; "  id String"; "  limit Int32 (default=5)"; "  since Timestamp (header=""X-Since"")";
    "  expect 200 {"; "    item Item"; "    seen Timestamp (header=""X-Seen"")"; "  }"; "  except 404 Oops"; "  except 304 Gone"; "}";
    "http PUT ""/items/{id}"" (operation=PutItem) {"; "  id String"; "  item Item"; "  expect 204"; "}" ].
Definition with_server : jservice := mkJSv "demo.server" true "demo.client".
Definition instant_options : jopts := mkJO "Store" "demo" "demo.model" "" false true true true false.
Definition store_resources : list jresource :=
  [ mkJR "GET" "/items/{id}" "getItem" "GetItem"
      [mkJP "id" AtPath (JT "String") None; mkJP "limit" (AtQuery "limit") (JT "Integer") (Some "5"); mkJP "since" (AtHeader "X-Since") (JT "Instant") None]
      200 true [("X-Seen", "seen")] (Some ("item", false)) [(JT "Oops", 404%Z); (JT "Gone", 304%Z)];
    mkJR "PUT" "/items/{id}" "putItem" "PutItem" [mkJP "id" AtPath (JT "String") None; mkJP "item" AtBody (JT "Item") None] 204 false [] None [] ].
Definition store_calls : list jcall :=
  [ mkJC "GET" "/items/{id}" "getItem" "GetItem" [("id", AtPath); ("limit", AtQuery "limit")] [("since", "X-Since")] None 200
      (Some (Some ("item", JT "Item"), [("seen", "X-Seen", JT "Instant")])) "GetItem" [(404%Z, "Oops"); (304%Z, "Gone")];
    mkJC "PUT" "/items/{id}" "putItem" "PutItem" [("id", AtPath)] [] (Some "item") 204 None "" [] ].
(** what generating gives, when it succeeds *)
Definition got (r : result unit jstate) : option (list jout) := match r with Ok st => if js_err st then None else Some (outs st) | _ => None end.
Lemma got_done r l : got r = Some l -> exists st, r = Ok st /\ js_err st = false /\ outs st = l.
Proof. unfold got. destruct r as [st| | |]; try discriminate. intros H. exists st. split; [reflexivity|]. destruct (js_err st); [discriminate|]. split; [reflexivity|congruence]. Qed.
Example C117_server_case : let m := parse_of store_lines in let sch := m_schema m in
  parse_sadl_string demo_ext no_files 0 9 (src store_lines) = Ok m /\ new_model sch = Ok m
  /\ exists st, serve toy_number m instant_options with_server 30 start = Ok st /\ js_err st = false /\ outs st = outs start ++ served instant_options with_server sch true "Store" store_resources.
Proof.
  cbv zeta. split; [vm_compute; reflexivity|]. split; [vm_compute; reflexivity|]. apply got_done. vm_compute. reflexivity.
Qed.

(** ** C118 *)
Theorem C118_client_exact : forall dec_text sch m, new_model sch = Ok m -> forall o sv st, js_err st = false ->
  (forall fuel st', call_on dec_text m o sv fuel st = Ok st' -> js_err st' = false ->
     exists service cs, client_shown (jo_instants o) sch service cs /\ outs st' = outs st ++ called o sv sch service cs)
  /\ (forall service cs, client_shown (jo_instants o) sch service cs -> exists f0, forall f, f0 <= f -> done (call_on dec_text m o sv f st)).
Proof.
  intros dt sch m Hm o sv st E. split.
  - intros f st' H E'. destruct (client_spec dt sch m Hm o sv f st st' E H E') as (service & cs & S & A). exists service, cs. split; [exact S|exact (adds_outs _ _ _ A)].
  - intros service cs S. destruct (client_fine dt sch m Hm o sv service cs S) as [f0 F]. exists f0. intros f L. exact (F f L st E).
Qed.
Print Assumptions C118_client_exact.
Example C118_client_case : let m := parse_of store_lines in let sch := m_schema m in
  parse_sadl_string demo_ext no_files 0 9 (src store_lines) = Ok m /\ new_model sch = Ok m
  /\ exists st, call_on toy_number m instant_options with_server 30 start = Ok st /\ js_err st = false /\ outs st = outs start ++ called instant_options with_server sch "Store" store_calls.
Proof.
  cbv zeta. split; [vm_compute; reflexivity|]. split; [vm_compute; reflexivity|]. apply got_done. vm_compute. reflexivity.
Qed.

(** ** C119 *)
(** Full statement: the client sends every input where the server looks for it and nothing else, finds every output where the server puts it, and tells the errors apart by
    the same classes. Missing: C119_agree_exact says for which actions; C119_agree_refuted shows actions of texts for which it fails. *)
Theorem C119_agree_exact : forall dec_text sch m, new_model sch = Ok m -> forall instants h r c,
  resource_shown (java_name sch instants) dec_text h r -> call_shown (java_name sch instants) h c ->
  (jc_method c = jr_method r /\ jc_path c = jr_path r /\ jc_status c = jr_status r /\ map fst (jc_errors c) = map snd (jr_errors r))
  /\ (NoDup (map (fun p => fd_name (ps_field p)) (h_inputs h)) ->
      ((forall n pl, listens r n pl <-> sends c n pl) <-> (forall p, In p (h_inputs h) -> one_place p) /\ one_body h))
  /\ ((forall n pl, answers r n pl <-> awaits c n pl) <-> answer_plain (java_name sch instants) h)
  /\ (map (fun e => (snd e, jtype_text (fst e))) (jr_errors r) = jc_errors c <-> forall e t, In e (h_exceptions h) -> java_name sch instants (xc_type e) true t -> jtype_text t = xc_type e).
Proof.
  intros dt sch m Hm i h r c R C.
  assert (One : forall n b t t', java_name sch i n b t -> java_name sch i n b t' -> jtype_text t = jtype_text t').
  { intros n b t t' [a U] [a' U']. exact (proj1 (use_one dt sch m Hm (mkJO "" "" "" "" false false i false false) None n b t a t' a' U U')). }
  split; [exact (same_action _ dt h r c R C)|]. split; [exact (inputs_agree _ dt h r c R C)|]. split; [exact (answers_agree _ dt One h r c R C)|exact (errors_agree _ dt One h r c R C)].
Qed.
Print Assumptions C119_agree_exact.
(** For models read from text only a PUT or POST without a body can go wrong. *)
Theorem C119_parsed_partial : forall X E, files_have_text E -> forall d v m,
  (exists toks, symbols_have_text toks /\ parse_sadl_string X E d v toks = Ok m) \/ (exists f, parse_sadl_file X E d v f = Ok m) ->
  let sch := m_schema m in
  forall dec_text instants h r c, In h (sc_http sch) -> NoDup (map (fun p => fd_name (ps_field p)) (h_inputs h)) ->
  resource_shown (java_name sch instants) dec_text h r -> call_shown (java_name sch instants) h c ->
  ((forall n pl, listens r n pl <-> sends c n pl) <-> (In (h_method h) ["PUT"; "POST"] -> exists p, In p (h_inputs h) /\ java_body p)).
Proof.
  intros X E Ft d v m P sch dt i h r c I Nd R C. assert (Hm : new_model sch = Ok m) by (apply (parsed_ok X E Ft d v m P)).
  destruct (C119_agree_exact dt sch m Hm i h r c R C) as (_ & A & _). rewrite (A Nd). clear A.
  destruct (parsed_actions X E Ft d v m P h I) as (_ & One & Non & _). split.
  - intros [_ [B _]] M. destruct (B M) as (p & J & K & _). exists p. auto.
  - intros B. split; [|split].
    + intros p J. destruct (parsed_input X E Ft d v m P h p I J) as [(A1 & A2 & A3)|[(A1 & A2 & A3 & _)|[(A1 & A2 & _)|(A1 & A2 & A3 & _)]]]; split; intros K; try (split; assumption); try assumption; congruence.
    + intros M. destruct (B M) as (p & J & K). exists p. split; [exact J|]. split; [exact K|]. intros q Jq Kq.
      destruct (in_split _ _ J) as (l1 & l2 & S). rewrite S in Jq. apply in_app_or in Jq. destruct K as (K1 & K2 & K3), Kq as (L1 & L2 & L3).
      destruct Jq as [Jq|[<- |Jq]]; [|reflexivity|]; exfalso; destruct (in_split _ _ Jq) as (l3 & l4 & S').
      * apply (One l3 q l4 p l2); [rewrite S, S', <- app_assoc; reflexivity|repeat split; assumption|repeat split; assumption].
      * apply (One l1 p l3 q l4); [rewrite S, S'; reflexivity|repeat split; assumption|repeat split; assumption].
    + intros M p J (K1 & K2 & K3). destruct C as (x & _ & _ & _ & _ & _ & _ & _ & Se & _). apply (Non) with (a := p); [|exact J|repeat split; assumption].
      destruct Se as [(M' & _)|(M' & _)]; [contradiction|]. clear -M'. cbn in M'. intros K. cbn in K. destruct M' as [M'|[M'|[]]]; rewrite <- M' in K; repeat (destruct K as [K|K]; [discriminate K|]); exact K.
Qed.
Print Assumptions C119_parsed_partial.
(** both generators succeed for the text, and the theorem applies to its action *)
Definition both_done (l : list string) : Prop :=
  let m := parse_of l in parse_sadl_string demo_ext no_files 0 9 (src l) = Ok m /\ new_model (m_schema m) = Ok m
  /\ done (serve toy_number m instant_options with_server 30 start) /\ done (call_on toy_number m instant_options with_server 30 start).
Lemma both_shown l h : both_done l -> In h (sc_http (m_schema (parse_of l))) ->
  exists r c, resource_shown (java_name (m_schema (parse_of l)) true) toy_number h r /\ call_shown (java_name (m_schema (parse_of l)) true) h c.
Proof.
  intros (_ & Hm & (s1 & S1 & E1) & (s2 & S2 & E2)) I.
  destruct (server_spec toy_number _ _ Hm instant_options with_server 30 start s1 eq_refl S1 E1) as (_ & rs & _ & (_ & _ & _ & F) & _).
  destruct (client_spec toy_number _ _ Hm instant_options with_server 30 start s2 eq_refl S2 E2) as (_ & cs & (_ & _ & G) & _).
  destruct (forall2_mem _ _ _ F h I) as (r & _ & R). destruct (forall2_mem _ _ _ G h I) as (c & _ & C). exists r, c. auto.
Qed.
Ltac both := split; [vm_compute; reflexivity|]; split; [vm_compute; reflexivity|]; split; eexists; (split; [vm_compute; reflexivity|reflexivity]).
(** [store_lines] meets the hypotheses, and both sides agree *)
Example C119_agree_case : both_done store_lines /\ length (sc_http (m_schema (parse_of store_lines))) = 2
  /\ (forall h, In h (sc_http (m_schema (parse_of store_lines))) -> NoDup (map (fun p => fd_name (ps_field p)) (h_inputs h)) /\ (In (h_method h) ["PUT"; "POST"] -> exists p, In p (h_inputs h) /\ java_body p))
  /\ forall h, In h (sc_http (m_schema (parse_of store_lines))) -> exists r c, forall n pl, listens r n pl <-> sends c n pl.
Proof.
  assert (B : both_done store_lines) by both. split; [exact B|]. split; [vm_compute; reflexivity|].
  assert (K : forall h, In h (sc_http (m_schema (parse_of store_lines))) -> NoDup (map (fun p => fd_name (ps_field p)) (h_inputs h)) /\ (In (h_method h) ["PUT"; "POST"] -> exists p, In p (h_inputs h) /\ java_body p)).
  { remember (sc_http (m_schema (parse_of store_lines))) as l eqn:S. vm_compute in S. intros h I. rewrite S in I. destruct I as [<- |[<- |[]]]; (split; [apply (NoDup_count_occ' string_dec); intros n J; cbn in J; repeat (destruct J as [<- |J]; [reflexivity|]); destruct J|]).
    - intros [M|[M|[]]]; discriminate M.
    - intros _. cbn [h_inputs]. eexists. split; [right; left; reflexivity|]. repeat split; reflexivity. }
  split; [exact K|]. intros h I. destruct (both_shown _ h B I) as (r & c & R & C). exists r, c. destruct (K h I) as [N M].
  apply (C119_parsed_partial demo_ext no_files no_files_text 0 9 (parse_of store_lines)) with (dec_text := toy_number) (instants := true) (h := h); try assumption.
  left. exists (src store_lines). split; [apply symbols_by_test; vm_compute; reflexivity|exact (proj1 B)].
Qed.
Definition some_types : list string := ["name store"; "type Item Struct {"; "  label String"; "}"; "type Note Struct {"; "  message String"; "}"].
Definition no_body : list string := some_types ++ ["http POST ""/x"" (operation=addX) {"; "  expect 204"; "}"].
Definition void_output : list string := some_types ++ ["http GET ""/x"" (operation=getX) {"; "  expect 200 {"; "    void Item"; "  }"; "}"].
Definition list_error : list string := some_types ++ ["type Oops Array<String>"; "http GET ""/x"" (operation=getX) {"; "  expect 200 {"; "    a Item"; "  }"; "  except 404 Oops"; "}"].
Theorem C119_agree_refuted :
  (both_done no_body /\ exists h r c, In h (sc_http (m_schema (parse_of no_body)))
     /\ resource_shown (java_name (m_schema (parse_of no_body)) true) toy_number h r /\ call_shown (java_name (m_schema (parse_of no_body)) true) h c
     /\ ~ (forall n pl, listens r n pl <-> sends c n pl))
  /\ (both_done void_output /\ exists h r c, In h (sc_http (m_schema (parse_of void_output)))
     /\ resource_shown (java_name (m_schema (parse_of void_output)) true) toy_number h r /\ call_shown (java_name (m_schema (parse_of void_output)) true) h c
     /\ ~ (forall n pl, answers r n pl <-> awaits c n pl))
  /\ (both_done list_error /\ exists h r c, In h (sc_http (m_schema (parse_of list_error)))
     /\ resource_shown (java_name (m_schema (parse_of list_error)) true) toy_number h r /\ call_shown (java_name (m_schema (parse_of list_error)) true) h c
     /\ map (fun e => (snd e, jtype_text (fst e))) (jr_errors r) <> jc_errors c).
Proof.
  assert (B1 : both_done no_body) by both. assert (B2 : both_done void_output) by both. assert (B3 : both_done list_error) by both.
  split; [|split]; (split; [assumption|]).
  - assert (I : In (http_of no_body) (sc_http (m_schema (parse_of no_body)))) by (vm_compute; left; reflexivity).
    destruct (both_shown _ _ B1 I) as (r & c & R & C). exists (http_of no_body), r, c. split; [exact I|]. split; [exact R|]. split; [exact C|]. intros A.
    assert (N : h_inputs (http_of no_body) = []) by (vm_compute; reflexivity). assert (M : h_method (http_of no_body) = "POST") by (vm_compute; reflexivity).
    destruct (C119_agree_exact toy_number _ _ (proj1 (proj2 B1)) true _ r c R C) as (_ & G & _). rewrite N in G. cbn [map] in G. apply (proj1 (G (NoDup_nil _))) in A as [_ [O _]].
    destruct O as (p & J & _); [rewrite M; right; left; reflexivity|]. rewrite N in J. exact J.
  - assert (I : In (http_of void_output) (sc_http (m_schema (parse_of void_output)))) by (vm_compute; left; reflexivity).
    destruct (both_shown _ _ B2 I) as (r & c & R & C). exists (http_of void_output), r, c. split; [exact I|]. split; [exact R|]. split; [exact C|]. intros A.
    destruct (C119_agree_exact toy_number _ _ (proj1 (proj2 B2)) true _ r c R C) as (_ & _ & G & _). apply (proj1 G) in A.
    assert (T : exists y, type_name toy_number (parse_of void_output) instant_options 30 None "Item" true = Ok y /\ jn_text y = "Item") by (eexists; split; [vm_compute; reflexivity|reflexivity]).
    destruct T as (y & Y & Z). destruct (name_at toy_number _ _ (proj1 (proj2 B2)) instant_options 30 _ _ _ Y) as (t & (_ & U) & V).
    assert (X : exists x p, h_expected (http_of void_output) = Some x /\ xp_outputs x = [p] /\ ps_header p = "" /\ param_type p = "Item" /\ fd_name (ps_field p) = "void").
    { eexists _, _. split; [vm_compute; reflexivity|]. split; [reflexivity|]. split; [reflexivity|]. split; reflexivity. }
    destruct X as (x & p & X & O & H & T & N). assert (F : first plain_output (xp_outputs x) p) by (rewrite O; split; [exact H|]; exists [], []; split; [reflexivity|intros w []]).
    rewrite <- T in U. pose proof (proj1 (A x p t X F U)) as K. rewrite N, <- V, Z in K. discriminate K. right. left. reflexivity.
  - assert (I : In (http_of list_error) (sc_http (m_schema (parse_of list_error)))) by (vm_compute; left; reflexivity).
    destruct (both_shown _ _ B3 I) as (r & c & R & C). exists (http_of list_error), r, c. split; [exact I|]. split; [exact R|]. split; [exact C|]. intros A.
    destruct (C119_agree_exact toy_number _ _ (proj1 (proj2 B3)) true _ r c R C) as (_ & _ & _ & G). pose proof (proj1 G A) as K. clear G A.
    assert (T : exists y, type_name toy_number (parse_of list_error) instant_options 30 None "Oops" true = Ok y /\ jn_text y = "List<String>") by (eexists; split; [vm_compute; reflexivity|reflexivity]).
    destruct T as (y & Y & Z). destruct (name_at toy_number _ _ (proj1 (proj2 B3)) instant_options 30 _ _ _ Y) as (t & (_ & U) & V).
    assert (X : exists e, In e (h_exceptions (http_of list_error)) /\ xc_type e = "Oops") by (eexists; split; [vm_compute; left; reflexivity|reflexivity]).
    destruct X as (e & J & X). rewrite <- X in U. specialize (K e t J U). rewrite <- V, Z, X in K. discriminate K.
Qed.
Print Assumptions C119_agree_refuted.
(** Methods for which only the server can be generated, and defaults for which only the client can. *)
Definition patched : list string := some_types ++ ["http PATCH ""/x"" (operation=fixX) {"; "  a Item"; "  expect 204"; "}"].
Definition list_default : list string := some_types ++ ["type L Array<String>"; "http GET ""/x?a={id}"" (operation=getX) {"; "  id L (default=[""a""])"; "  expect 200 {"; "    a Item"; "  }"; "}"].
Theorem C118_methods_refuted :
  parse_sadl_string demo_ext no_files 0 9 (src patched) = Ok (parse_of patched)
  /\ done (serve toy_number (parse_of patched) instant_options with_server 30 start)
  /\ forall fuel, ~ done (call_on toy_number (parse_of patched) instant_options with_server fuel start).
Proof.
  parsed. split; [eexists; split; [vm_compute; reflexivity|reflexivity]|]. intros f (s & S & E).
  assert (Hm : new_model (m_schema (parse_of patched)) = Ok (parse_of patched)) by (vm_compute; reflexivity).
  destruct (client_spec toy_number _ _ Hm instant_options with_server f start s eq_refl S E) as (_ & cs & (_ & _ & G) & _).
  assert (I : In (http_of patched) (sc_http (m_schema (parse_of patched)))) by (vm_compute; left; reflexivity).
  destruct (forall2_mem _ _ _ G _ I) as (c & _ & (x & _ & _ & _ & _ & _ & _ & _ & Se & _)). assert (M : h_method (http_of patched) = "PATCH") by (vm_compute; reflexivity). unfold sent in Se. rewrite M in Se.
  destruct Se as [([K|[K|[]]] & _)|([K|[K|[]]] & _)]; discriminate K.
Qed.
Print Assumptions C118_methods_refuted.
Theorem C117_defaults_refuted :
  parse_sadl_string demo_ext no_files 0 9 (src list_default) = Ok (parse_of list_default)
  /\ done (call_on toy_number (parse_of list_default) instant_options with_server 30 start)
  /\ forall fuel, ~ done (serve toy_number (parse_of list_default) instant_options with_server fuel start).
Proof.
  parsed. split; [eexists; split; [vm_compute; reflexivity|reflexivity]|]. intros f (s & S & E).
  assert (Hm : new_model (m_schema (parse_of list_default)) = Ok (parse_of list_default)) by (vm_compute; reflexivity).
  destruct (server_spec toy_number _ _ Hm instant_options with_server f start s eq_refl S E) as (_ & rs & _ & (_ & _ & _ & F) & _).
  assert (I : In (http_of list_default) (sc_http (m_schema (parse_of list_default)))) by (vm_compute; left; reflexivity).
  destruct (forall2_mem _ _ _ F _ I) as (r & _ & (x & _ & _ & _ & _ & Ps & _)).
  assert (J : exists p v, In p (h_inputs (http_of list_default)) /\ fd_default (ps_field p) = VArr v) by (eexists _, _; split; [vm_compute; left; reflexivity|reflexivity]).
  destruct J as (p & v & J & D). destruct (forall2_mem _ _ _ Ps p J) as (q & _ & (_ & _ & _ & Q)). rewrite D in Q. inversion Q.
Qed.
Print Assumptions C117_defaults_refuted.
