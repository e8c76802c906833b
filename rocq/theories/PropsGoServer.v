(** C103-C105: the generated Go file of a server. *)
From Coq Require Import Lia.
From Verif Require Import GoStr Outcome Value Schema Scalars Time Model Misc ParserValidate Scan Parser Generator Golang GoModel GoServer
  SpecTime SpecModel SpecMisc SpecPV SpecParser SpecTrace SpecGo SpecGoServer ModelFacts PVFacts Demo Lex FileFacts InvFacts InvNames ParsedFacts PropsParser
  TraceFacts PropsTrace GoModelFacts GoText GoServerFacts GoServerScope.

Definition server_lines : list string :=
  [ "type Item Struct {"; "  label String (required)"; "}";
    "type Oops Struct {"; "  message String"; "}";
    "type Score Int32";
    "http GET ""/items/{id}?max={max}"" (operation=getItem) {"; "  id String"; "  max Score (default=5)"; "  since Timestamp (header=""If-Modified-Since"")";
    "  expect 200 {"; "    item Item"; "    tag String (header=""ETag"")"; "  }"; "  except 404 Oops"; "}";
    "http PUT ""/items/{id}"" (operation=putItem) {"; "  id String"; "  item Item"; "  expect 200 {"; "    item Item"; "  }"; "}" ].
Definition server_handlers : list handler :=
  [ mkHandler "GetItem" "GET" "/items/{id}"
      [ Value_ "Id" (FromPath "id") (AsText (Some "string") ""); Value_ "Max" (FromQuery "max") (AsInt (Some "Score") "5");
        Value_ "Since" (FromHeader "If-Modified-Since") (AsTime None) ]
      false "200" [("ETag", "Tag")] (Some "Item") [("*Oops", "404")];
    mkHandler "PutItem" "PUT" "/items/{id}" [Value_ "Id" (FromPath "id") (AsText (Some "string") ""); Body_ "Item"] false "200" [] (Some "Item") [] ].
(** stand-ins for what is left open *)
Definition toy_print (v : value) : string := "0xc000010250".
Definition toy_time (s : string) : option timestamp := parse_timestamp true true s.

(** ** C103 *)
Theorem C103_server_exact : forall sch m, new_model sch = Ok m -> forall runtime sprint parse_time name pkg s,
  create_server sprint parse_time m runtime name pkg = Ok s -> exists imports service small hs,
    s = server_text server_library pkg imports service (small +++ "Adaptor") hs
    /\ large_first name service /\ small_first name small
    /\ Forall2 (handler_shown sprint (fun s t => parse_time s = Some t) (fun t s => s = ts_string t) sch runtime) (sc_http sch) hs
    /\ NoDup imports
    /\ forall p, In p imports <-> In p server_packages \/ (p = sadl_package /\ exists h, In h (sc_http sch) /\ action_use sch runtime h).
Proof. intros sch m Hm rt sprint parse_time name pkg s H. exact (server_spec sch m Hm rt sprint parse_time name pkg s H). Qed.
Print Assumptions C103_server_exact.
Example C103_server_case : exists m, parse_sadl_string demo_ext no_files 0 9 (src server_lines) = Ok m
  /\ create_server toy_print toy_time m false "Store" "s"
     = Ok (server_text server_library "s" server_packages "Store" "storeAdaptor" server_handlers).
Proof. exists (parse_of server_lines). parsed. vm_compute. reflexivity. Qed.
(** An accepted source whose text parameter does not get the default that is written in it but what Go prints for a pointer. *)
Theorem C103_default_refuted : exists l m k, parse_sadl_string demo_ext no_files 0 9 (src l) = Ok m
  /\ In "  tag String (default=""x"")" l
  /\ create_server toy_print toy_time m false "S" "s" = Ok (server_text server_library "s" server_packages "S" "sAdaptor" [k])
  /\ hd_inputs k = [Value_ "Tag" (FromQuery "tag") (AsText (Some "string") (toy_print (VPStr "x")))].
Proof.
  set (l := ["http GET ""/x?tag={tag}"" (operation=getX) {"; "  tag String (default=""x"")"; "  expect 200"; "}"]).
  exists l, (parse_of l), (mkHandler "GetX" "GET" "/x" [Value_ "Tag" (FromQuery "tag") (AsText (Some "string") (toy_print (VPStr "x")))] false "200" [] None []).
  parsed. split; [cbn; tauto|]. split; [vm_compute; reflexivity|reflexivity].
Qed.
Print Assumptions C103_default_refuted.
(** With the runtime library an accepted source whose server imports the library without mentioning it. *)
Theorem C103_library_refuted : exists l m hs,
  parse_sadl_string demo_ext no_files 0 9 (src l) = Ok m
  /\ create_server toy_print toy_time m true "S" "s" = Ok (server_text server_library "s" (server_packages ++ [sadl_package]) "S" "sAdaptor" hs)
  /\ forall a b, server_text server_library "s" [] "S" "sAdaptor" hs <> a +++ "sadl." +++ b.
Proof.
  set (l := ["http GET ""/x?t={t}"" (operation=getX) {"; "  t Timestamp"; "  expect 200"; "}"]).
  exists l, (parse_of l), [mkHandler "GetX" "GET" "/x" [Value_ "T" (FromQuery "t") (AsTime None)] false "200" [] None []].
  parsed. split; [vm_compute; reflexivity|]. intros a b E. assert (C : contains "sadl." (a +++ "sadl." +++ b) = true) by (apply contains_spec; eauto).
  rewrite <- E in C. vm_compute in C. discriminate.
Qed.
Print Assumptions C103_library_refuted.

(** ** C104 *)
Theorem C104_fails_exact : forall sch m, new_model sch = Ok m -> forall runtime sprint parse_time name pkg,
  (create_server sprint parse_time m runtime name pkg = Err tt <-> server_fails sch)
  /\ (~ server_fails sch -> exists s, create_server sprint parse_time m runtime name pkg = Ok s).
Proof.
  intros sch m Hm rt sprint parse_time name pkg. destruct (server_total sch m Hm rt sprint parse_time name pkg) as [[E F]|(F & s & E)]; rewrite E.
  - split; [tauto|contradiction].
  - split; [split; [discriminate|contradiction]|eauto].
Qed.
Print Assumptions C104_fails_exact.
(** Accepted sources without a server. *)
Example C104_fails_case : forall t, In t ["Bool"; "Float64"; "Decimal"; "Kind"] -> exists m,
  parse_sadl_string demo_ext no_files 0 9 (src ["type Kind Enum {"; "  red"; "}"; "http GET ""/x?k={k}"" (operation=getX) {"; "  k " +++ t; "  expect 200"; "}"]) = Ok m
  /\ forall sprint parse_time, create_server sprint parse_time m false "S" "s" = Err tt.
Proof.
  intros t I. exists (parse_of ["type Kind Enum {"; "  red"; "}"; "http GET ""/x?k={k}"" (operation=getX) {"; "  k " +++ t; "  expect 200"; "}"]).
  cbn [In] in I. destruct I as [<- |[<- |[<- |[<- |[]]]]]; (split; [vm_compute; reflexivity|intros sprint parse_time; vm_compute; reflexivity]).
Qed.

(** ** C105 *)
Theorem C105_variables_exact : forall sprint instant stamp sch runtime h k,
  handler_shown sprint instant stamp sch runtime h k -> (variables_ok k <-> neat h).
Proof. exact neat_iff. Qed.
Print Assumptions C105_variables_exact.
Lemma few_errors ps : (forall p, In p ps -> ~ in_body p) \/ (forall p, In p ps -> ps_query p = "") /\ (exists a p b, ps = a ++ [p] ++ b /\ forall q, In q (a ++ b) -> ~ in_body q) ->
  one_error ps.
Proof.
  intros [N|[N (a & p & b & -> & U)]]; split.
  - intros p q _ J _. exact (N q J).
  - intros a p b -> B q I. apply N. apply in_app_iff in I. rewrite in_app_iff. cbn. tauto.
  - intros q r I _ Q. contradiction (Q (N q I)).
  - intros a' q b' E B. assert (D : (a' = a /\ q = p /\ b' = b) \/ In q (a ++ b)).
    { clear -E. revert a E. induction a' as [|x a' IH]; intros [|y a] E; cbn in E.
      - left. injection E as <- <-. auto.
      - right. injection E as <- <-. now left.
      - right. injection E as <- ->. cbn. apply in_elt.
      - injection E as <- E. destruct (IH a E) as [(-> & -> & ->)|I]; [left; auto|right; now right]. }
    destruct D as [(-> & -> & ->)|I]; [exact U|contradiction (U q I B)].
Qed.
Example C105_variables_case : exists m, parse_sadl_string demo_ext no_files 0 9 (src server_lines) = Ok m
  /\ create_server toy_print toy_time m false "Store" "s" = Ok (server_text server_library "s" server_packages "Store" "storeAdaptor" server_handlers)
  /\ length (sc_http (m_schema m)) = 2 /\ Forall neat (sc_http (m_schema m)).
Proof.
  exists (parse_of server_lines). parsed. split; [vm_compute; reflexivity|]. split; [vm_compute; reflexivity|].
  assert (N : forall h x, h_expected h = Some x -> xp_status x = 200%Z -> xp_outputs x <> [] -> one_error (h_inputs h) -> neat h).
  { intros h x E S O C. exists x. split; [exact E|]. right. split; [unfold no_content; rewrite S; intros [Z|Z]; discriminate|auto]. }
  match goal with |- Forall neat ?L => let L' := eval vm_compute in L in assert (EL : L = L') by (vm_compute; reflexivity); rewrite EL; clear EL end.
  constructor; [|constructor; [|constructor]]; (eapply N; [reflexivity|reflexivity|discriminate|]); cbn [h_inputs]; apply few_errors; [left|right; split].
  - intros p [<- |[<- |[<- |[]]]] (B1 & B2 & B3); [discriminate B3|discriminate B1|discriminate B2].
  - intros p [<- |[<- |[]]]; reflexivity.
  - eexists [_], _, []. split; [reflexivity|]. intros q [<- |[]] (B1 & B2 & B3). discriminate B3.
Qed.
(** Accepted sources with a handler that Go refuses. *)
Theorem C105_variables_refuted : forall l, In l
  [ ["http POST ""/x?k={k}"" (operation=putX) {"; "  k String"; "  b String"; "  expect 200 {"; "    b String"; "  }"; "}"];
    ["http POST ""/x"" (operation=putX) {"; "  b String"; "  expect 204"; "}"];
    ["http GET ""/x"" (operation=getX) {"; "  expect 200"; "}"] ] ->
  exists m k, parse_sadl_string demo_ext no_files 0 9 (src l) = Ok m
    /\ create_server toy_print toy_time m false "S" "s" = Ok (server_text server_library "s" server_packages "S" "sAdaptor" [k]) /\ ~ variables_ok k.
Proof.
  intros l I. exists (parse_of l). cbn [In] in I. destruct I as [<- |[<- |[<- |[]]]].
  - exists (mkHandler "PutX" "POST" "/x" [Value_ "K" (FromQuery "k") (AsText (Some "string") ""); Body_ "B"] false "200" [] (Some "B") []).
    parsed. split; [vm_compute; reflexivity|]. intros V. apply variables_iff in V as [V _]. vm_compute in V. lia.
  - exists (mkHandler "PutX" "POST" "/x" [Body_ "B"] true "204" [] None []).
    parsed. split; [vm_compute; reflexivity|]. intros V. apply variables_iff in V as (_ & V & _). destruct (V eq_refl) as [V' _]. discriminate V'.
  - exists (mkHandler "GetX" "GET" "/x" [] false "200" [] None []).
    parsed. split; [vm_compute; reflexivity|]. intros V. apply variables_iff in V as (_ & _ & V). apply (V eq_refl). split; reflexivity.
Qed.
Print Assumptions C105_variables_refuted.
