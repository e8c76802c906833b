(** C106, C107: the generated Go file of a client. *)
From Verif Require Import GoStr Outcome Value Schema Scalars Time Model Misc ParserValidate Scan Parser Generator Golang GoModel GoServer GoClient
  SpecTime SpecModel SpecMisc SpecPV SpecParser SpecTrace SpecGo SpecGoServer SpecGoClient ModelFacts PVFacts Demo Lex FileFacts InvFacts InvNames ParsedFacts PropsParser
  TraceFacts PropsTrace GoModelFacts GoText GoServerFacts GoClientFacts PropsGoServer.

Definition client_methods : list cmethod :=
  [ mkCM "GetItem" "GET" "/items/{id}" [mkCQ "Max" "0" "max" "%d"] None "200" [OutBody "Item" "*Item"; OutHeader "Tag" "ETag" false] [("*Oops", "404")];
    mkCM "PutItem" "PUT" "/items/{id}" [] (Some "Item") "200" [OutBody "Item" "*Item"] [] ].

(** ** C106 *)
Theorem C106_client_exact : forall sch m, new_model sch = Ok m -> forall runtime name pkg s,
  create_client m runtime name pkg = Ok s -> exists imports large cs,
    s = client_text pkg imports (large +++ "Client") cs /\ large_first name large
    /\ Forall2 (method_shown sch runtime) (sc_http sch) cs
    /\ NoDup imports
    /\ forall p, In p imports <-> In p client_packages \/ (p = sadl_package /\ exists h, In h (sc_http sch) /\ client_use sch runtime h)
                   \/ (p = bytes_package /\ exists h, In h (sc_http sch) /\ sends_body h).
Proof. intros sch m Hm rt name pkg s H. exact (client_spec sch m Hm rt name pkg s H). Qed.
Print Assumptions C106_client_exact.
Example C106_client_case : exists m, parse_sadl_string demo_ext no_files 0 9 (src server_lines) = Ok m
  /\ create_client m false "Store" "s" = Ok (client_text "s" (client_packages ++ [bytes_package]) "StoreClient" client_methods).
Proof. exists (parse_of server_lines). parsed. vm_compute. reflexivity. Qed.
(** An action whose path and header parameters do not occur in the method of the client. *)
Theorem C106_parameters_refuted : exists l m c, parse_sadl_string demo_ext no_files 0 9 (src l) = Ok m
  /\ create_client m false "S" "s" = Ok (client_text "s" client_packages "SClient" [c])
  /\ map (fun p => fd_name (ps_field p)) (h_inputs (http_of l)) = ["id"; "who"]
  /\ (forall a b, cmethod_text "SClient" c <> a +++ "req.Id" +++ b) /\ (forall a b, cmethod_text "SClient" c <> a +++ "req.Who" +++ b).
Proof.
  set (l := ["http GET ""/x/{id}"" (operation=getX) {"; "  id String"; "  who String (header=""X-Who"")"; "  expect 200"; "}"]).
  exists l, (parse_of l), (mkCM "GetX" "GET" "/x/{id}" [] None "200" [] []). parsed. split; [vm_compute; reflexivity|]. split; [vm_compute; reflexivity|].
  split; intros a b E;
    match type of E with ?X = a +++ ?t +++ b => assert (C : contains t X = true) by (apply contains_spec; eauto); vm_compute in C; discriminate end.
Qed.
Print Assumptions C106_parameters_refuted.

(** ** C107 *)
Theorem C107_fails_exact : forall sch m, new_model sch = Ok m -> forall runtime name pkg,
  (create_client m runtime name pkg = Err tt <-> client_fails sch)
  /\ (~ client_fails sch -> exists s, create_client m runtime name pkg = Ok s).
Proof.
  intros sch m Hm rt name pkg. destruct (client_total sch m Hm rt name pkg) as [[E F]|(F & s & E)]; rewrite E.
  - split; [tauto|contradiction].
  - split; [split; [discriminate|contradiction]|eauto].
Qed.
Print Assumptions C107_fails_exact.
Example C107_fails_case :
  (exists m, new_model (schema_of [] [demo_action]) = Ok m /\ create_client m false "S" "s" = Err tt)
  /\ exists m s, parse_sadl_string demo_ext no_files 0 9 (src server_lines) = Ok m /\ ~ client_fails (m_schema m) /\ create_client m true "Store" "s" = Ok s.
Proof.
  split; [eexists; split; vm_compute; reflexivity|]. set (m := parse_of server_lines).
  assert (Hm : new_model (m_schema m) = Ok m) by (vm_compute; reflexivity).
  destruct (client_total (m_schema m) m Hm true "Store" "s") as [[E _]|(F & s & E)]; [exfalso; vm_compute in E; discriminate|].
  exists m, s. parsed. split; [exact F|exact E].
Qed.
