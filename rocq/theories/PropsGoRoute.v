(** C110, C111: which action gets a request, and what the client makes of the answer. *)
From Verif Require Import GoStr Outcome Value Schema Scalars Time Model Misc ParserValidate Scan Parser Generator Golang GoModel GoServer GoClient
  SpecTime SpecModel SpecMisc SpecPV SpecParser SpecTrace SpecGo SpecGoServer SpecGoClient SpecGoCall ModelFacts PVFacts Demo Lex FileFacts InvFacts InvNames ParsedFacts PropsParser
  TraceFacts PropsTrace TraceFill GoModelFacts GoText GoServerFacts GoClientFacts GoRoute GoReceive GoCall GoAnswer PropsGoServer PropsGoClient PropsGoCall.
From Coq Require Import Lia.

(** ** C110 *)
Theorem C110_routes_exact : forall sch sprint instant stamp runtime ks, Forall2 (handler_shown sprint instant stamp sch runtime) (sc_http sch) ks ->
  (forall h, In h (sc_http sch) -> exists l, segmented h l) ->
  forall i h l, nth_error (sc_http sch) i = Some h -> segmented h l ->
  ((forall path vs, accepted (segments_text l) path vs -> reaches ks (h_method h) path i)
   <-> forall j h' l', j < i -> nth_error (sc_http sch) j = Some h' -> h_method h' = h_method h -> segmented h' l' -> ~ overlap l' l).
Proof.
  intros sch sprint instant stamp rt ks F. apply own_requests. clear -F. induction F as [|h k hs ks H F IH]; constructor; [exact (routed_shown _ _ _ _ _ _ _ H)|exact IH].
Qed.
Print Assumptions C110_routes_exact.
Definition route_lines : list string :=
  [ "http GET ""/x/{id}"" (operation=getX) {"; "  id String"; "  expect 200"; "}"; "http GET ""/x/{id}/y?n={n}"" (operation=getY) {"; "  id String"; "  n Int32"; "  expect 200"; "}";
    "http PUT ""/x/{id}"" (operation=putX) {"; "  id String"; "  x String"; "  expect 200"; "}"; "http GET ""/x/all"" (operation=getAll) {"; "  expect 200"; "}" ].
Definition route_segments : list (list segment) := [[Fixed "x"; Var "id"]; [Fixed "x"; Var "id"; Fixed "y"]; [Fixed "x"; Var "id"]; [Fixed "x"; Fixed "all"]].
Ltac segs := repeat (constructor; [cbn; repeat split; try discriminate; apply no_char_smem; reflexivity|]); constructor.
Lemma route_segmented : Forall2 segmented (sc_http (m_schema (parse_of route_lines))) route_segments.
Proof.
  assert (P : map h_path (sc_http (m_schema (parse_of route_lines))) = ["/x/{id}"; "/x/{id}/y?n={n}"; "/x/{id}"; "/x/all"]) by (vm_compute; reflexivity).
  remember (sc_http (m_schema (parse_of route_lines))) as hs eqn:E. clear E.
  destruct hs as [|h1 [|h2 [|h3 [|h4 [|]]]]]; try discriminate. cbn in P. injection P as P1 P2 P3 P4.
  constructor; [|constructor; [|constructor; [|constructor; [|constructor]]]]; (split; [unfold path_part|split; [segs|cbn; repeat constructor; cbn; tauto]]).
  - rewrite P1. split; [apply no_char_smem; reflexivity|left; reflexivity].
  - rewrite P2. split; [apply no_char_smem; reflexivity|right; exists "n={n}"; reflexivity].
  - rewrite P3. split; [apply no_char_smem; reflexivity|left; reflexivity].
  - rewrite P4. split; [apply no_char_smem; reflexivity|left; reflexivity].
Qed.
Lemma route_handlers : exists ks, Forall2 (handler_shown toy_print toy_instant toy_stamp (m_schema (parse_of route_lines)) false) (sc_http (m_schema (parse_of route_lines))) ks.
Proof.
  set (sch := m_schema (parse_of route_lines)). assert (Hm : new_model sch = Ok (parse_of route_lines)) by (vm_compute; reflexivity).
  destruct (server_total sch _ Hm false toy_print toy_time "S" "s") as [[E _]|(_ & s & E)].
  - exfalso. assert (X : match create_server toy_print toy_time (parse_of route_lines) false "S" "s" with Err _ => true | _ => false end = false) by (vm_compute; reflexivity).
    rewrite E in X. discriminate.
  - destruct (server_spec sch _ Hm false toy_print toy_time "S" "s" s E) as (_ & _ & _ & ks & _ & _ & _ & F & _). exists ks. exact F.
Qed.
Lemma segment_text_inj s t : segment_ok s -> segment_ok t -> segment_text s = segment_text t -> s = t.
Proof.
  intros S T E. destruct s as [a|n], t as [b|n']; cbn in S, T, E.
  - now subst.
  - subst a. destruct S as (_ & S & _). apply no_char_cons in S as [X _]. now destruct X.
  - subst b. destruct T as (_ & T & _). apply no_char_cons in T as [X _]. now destruct X.
  - injection E as E. apply append_inj_r in E. now subst.
Qed.
Lemma segmented_fun h l l' : segmented h l -> segmented h l' -> l = l'.
Proof.
  intros (P & S & _) (P' & S' & _). assert (E := path_part_fun _ _ _ P P'). rewrite !segments_path in E. apply path_of_inj in E.
  - clear P P'. revert l' S' E. induction S as [|s l A S IH]; intros [|s' l'] S' E; try discriminate; [reflexivity|]. cbn in E. injection E as E1 E2. inversion S'; subst.
    f_equal; [apply segment_text_inj; assumption|apply IH; assumption].
  - clear -S. induction S; cbn; constructor; [apply segment_plain; assumption|assumption].
  - clear -S'. induction S'; cbn; constructor; [apply segment_plain; assumption|assumption].
Qed.
Lemma y_accepted : exists vs, accepted (segments_text [Fixed "x"; Var "id"; Fixed "y"]) "/x/7/y" vs.
Proof.
  exists [("id", "7")]. split; [|repeat constructor; intros []]. cbn. repeat (apply fi_char; [discriminate|discriminate|]).
    apply (fi_var "id" "7"); [discriminate|apply no_char_smem; reflexivity..|discriminate|apply no_char_smem; reflexivity|]. repeat (apply fi_char; [discriminate|discriminate|]). constructor.
Qed.
(** The second action, that has a longer path, and the third, that has another method, get all their requests. *)
Example C110_routes_case : (exists m, parse_sadl_string demo_ext no_files 0 9 (src route_lines) = Ok m) /\ exists ks h,
  Forall2 (handler_shown toy_print toy_instant toy_stamp (m_schema (parse_of route_lines)) false) (sc_http (m_schema (parse_of route_lines))) ks
  /\ nth_error (sc_http (m_schema (parse_of route_lines))) 1 = Some h /\ segmented h [Fixed "x"; Var "id"; Fixed "y"]
  /\ (exists vs, accepted (segments_text [Fixed "x"; Var "id"; Fixed "y"]) "/x/7/y" vs)
  /\ forall path vs, accepted (segments_text [Fixed "x"; Var "id"; Fixed "y"]) path vs -> reaches ks (h_method h) path 1.
Proof.
  split; [exists (parse_of route_lines); vm_compute; reflexivity|]. destruct route_handlers as [ks F]. assert (G := route_segmented). remember (sc_http (m_schema (parse_of route_lines))) as hs eqn:E.
  exists ks. destruct (Forall2_nth_r _ _ _ G 1 [Fixed "x"; Var "id"; Fixed "y"] eq_refl) as (h & N & S). exists h. split; [exact F|]. split; [exact N|]. split; [exact S|]. split.
  - exact y_accepted.
  - rewrite E in *. apply (C110_routes_exact _ _ _ _ _ _ F); [intros x X; destruct (In_nth_error _ _ X) as [j J]; destruct (Forall2_nth _ _ _ G j x J) as (y & _ & Y); exists y; exact Y|exact N|exact S|].
    intros j h' l' J N' _ S' O. assert (j = 0) as -> by lia. destruct (Forall2_nth _ _ _ G 0 h' N') as (y & Y & S2). injection Y as <-.
    rewrite (segmented_fun _ _ _ S' S2) in O. inversion O as [|? ? ? ? _ O1]; subst. inversion O1 as [|? ? ? ? _ O2]; subst. inversion O2.
Qed.
(** The first action takes the requests of the last, whose path it fits as well. *)
Theorem C110_routes_refuted : exists l m ks h, parse_sadl_string demo_ext no_files 0 9 (src l) = Ok m
  /\ Forall2 (handler_shown toy_print toy_instant toy_stamp (m_schema m) false) (sc_http (m_schema m)) ks
  /\ nth_error (sc_http (m_schema m)) 3 = Some h /\ h_name h = "getAll" /\ h_method h = "GET" /\ h_path h = "/x/all"
  /\ reaches ks "GET" "/x/all" 0 /\ forall path, ~ reaches ks "GET" path 3.
Proof.
  exists route_lines, (parse_of route_lines). destruct route_handlers as [ks F]. assert (G := route_segmented). exists ks, (nth 3 (sc_http (m_schema (parse_of route_lines))) (http_of route_lines)).
  parsed. split; [exact F|]. split; [vm_compute; reflexivity|]. split; [vm_compute; reflexivity|]. split; [vm_compute; reflexivity|]. split; [vm_compute; reflexivity|].
  assert (M : map h_method (sc_http (m_schema (parse_of route_lines))) = ["GET"; "GET"; "PUT"; "GET"]) by (vm_compute; reflexivity).
  remember (sc_http (m_schema (parse_of route_lines))) as hs eqn:E. clear E.
  assert (R : forall i l, nth_error route_segments i = Some l -> exists h k, nth_error hs i = Some h /\ nth_error ks i = Some k /\ hd_method k = h_method h /\ hd_route k = segments_text l /\ Forall segment_ok l /\ NoDup (vars_of l)).
  { intros i l N. destruct (Forall2_nth_r _ _ _ G i l N) as (h & NH & P & S & ND). destruct (Forall2_nth _ _ _ F i h NH) as (k & NK & K). destruct (routed_shown _ _ _ _ _ _ _ K) as [KM KP].
    exists h, k. repeat split; auto. eapply path_part_fun; eassumption. }
  destruct (R 0 _ eq_refl) as (h0 & k0 & H0 & K0 & M0 & R0 & S0 & D0). destruct (R 3 _ eq_refl) as (h3 & k3 & H3 & K3 & M3 & R3 & S3 & D3).
  assert (X0 : h_method h0 = "GET") by (apply (map_nth_error h_method) in H0; rewrite M in H0; injection H0 as X; symmetry; exact X).
  assert (A : forall path, (exists vs, accepted (hd_route k3) path vs) -> path = "/x/all").
  { intros path V. rewrite R3 in V. apply (accepted_segments _ S3 D3) in V as (ts & Q & ->). inversion Q as [|? ? ? ? Q1 Q2]; subst. inversion Q2 as [|? ? ? ? Q3 Q4]; subst. inversion Q4; subst. cbn in Q1, Q3. subst. reflexivity. }
  assert (B : exists vs, accepted (hd_route k0) "/x/all" vs).
  { rewrite R0. apply (accepted_segments _ S0 D0). exists ["x"; "all"]. split; [|reflexivity]. repeat constructor; try discriminate. apply no_char_smem. reflexivity. }
  destruct B as (vs & B). split.
  - exists k0, vs. split; [exact K0|]. split; [congruence|]. split; [exact B|]. intros j k' vs' J. lia.
  - intros path (k & vs' & K & _ & V & N). assert (k = k3) as -> by congruence. assert (path = "/x/all") as -> by (apply A; eauto). apply (N 0 k0 vs); [lia|exact K0|congruence|exact B].
Qed.
Print Assumptions C110_routes_refuted.

(** ** C111 *)
(** the answer of the handler that is declared as expected *)
Theorem C111_expected : forall sch sprint instant stamp runtime h k c x, handler_shown sprint instant stamp sch runtime h k -> method_shown sch runtime h c -> h_expected h = Some x ->
  numeral (hd_status k) (xp_status x) /\ forall o, understood c (xp_status x) o <-> o = Good.
Proof. intros sch sprint instant stamp rt h k c x. apply success_understood. Qed.
Print Assumptions C111_expected.
(** an error that the action declares *)
Theorem C111_declared_partial : forall sch m, new_model sch = Ok m -> forall sprint instant stamp runtime h k c,
  handler_shown sprint instant stamp sch runtime h k -> method_shown sch runtime h c -> NoDup (statuses h) ->
  forall t z, In t (map fst (hd_exceptions k)) -> answered k t z -> forall o, understood c z o <-> o = Raised t.
Proof. intros sch m Hm sprint instant stamp rt h k c. apply (errors_understood sch m Hm). Qed.
Print Assumptions C111_declared_partial.
(** an error that it does not declare *)
Theorem C111_undeclared : forall sch sprint instant stamp runtime h k c,
  handler_shown sprint instant stamp sch runtime h k -> method_shown sch runtime h c -> ~ In 500%Z (statuses h) ->
  forall t z, ~ In t (map fst (hd_exceptions k)) -> answered k t z -> forall o, understood c z o <-> o = Unknown.
Proof. intros sch sprint instant stamp rt h k c. apply others_unknown. Qed.
Print Assumptions C111_undeclared.
(** Go takes the switch of a method only if no status is declared twice. *)
Theorem C111_cases_exact : forall sch runtime h c, method_shown sch runtime h c -> (cases_ok c <-> NoDup (statuses h)).
Proof. intros sch rt h c. apply cases_iff. Qed.
Print Assumptions C111_cases_exact.
Example C111_case : exists k c t t', new_model call_schema = Ok (parse_of call_lines) /\ handler_shown toy_print toy_instant toy_stamp call_schema false call_action k
  /\ method_shown call_schema false call_action c /\ NoDup (statuses call_action) /\ ~ In 500%Z (statuses call_action)
  /\ In t (map fst (hd_exceptions k)) /\ answered k t 404 /\ ~ In t' (map fst (hd_exceptions k)) /\ answered k t' 500.
Proof.
  destruct (handler_exists call_schema _ toy_print toy_time false call_action call_model call_server call_in) as (k & K). exists k.
  destruct (method_exists call_schema _ false call_action call_model call_client call_in) as (c & C). exists c.
  assert (S : statuses call_action = [200; 404]%Z) by (vm_compute; reflexivity).
  assert (X2 : map xc_status (h_exceptions call_action) = [404%Z]) by (vm_compute; reflexivity).
  assert (F := K). destruct F as (x & _ & _ & _ & _ & _ & _ & _ & _ & _ & _ & F).
  assert (Hm := call_model). remember call_schema as sch eqn:E1. remember call_action as h eqn:E2. remember (parse_of call_lines) as m eqn:E3. clear E1 E2 E3.
  destruct (h_exceptions h) as [|e [|]]; try discriminate. injection X2 as X2.
  inversion F as [|? [t s] ? ? [G N] F1 E4 E5]; subst. inversion F1; subst. cbn [fst snd] in *. exists t, (t +++ "Other").
  split; [exact Hm|]. split; [exact K|]. split; [exact C|]. rewrite S. split; [constructor; [intros [Y|[]]; discriminate|constructor; [intros []|constructor]]|].
  assert (NI : ~ In (t +++ "Other") (map fst (hd_exceptions k))).
  { rewrite <- E5. intros [Y|[]]. cbn in Y. apply (f_equal String.length) in Y. rewrite append_length in Y. cbn in Y. lia. }
  split; [intros [Y|[Y|[]]]; discriminate|]. split; [left; reflexivity|].
  split; [left; exists [], s, []; split; [symmetry; exact E5|split; [intros []|rewrite <- X2; exact N]]|]. split; [rewrite <- E5 in NI; exact NI|right; auto].
Qed.
(** Two errors with one status: the client takes the second for the first, and Go takes neither. *)
Theorem C111_declared_refuted : exists l m k c, parse_sadl_string demo_ext no_files 0 9 (src l) = Ok m
  /\ create_server toy_print toy_time m false "S" "s" = Ok (server_text server_library "s" server_packages "S" "sAdaptor" [k])
  /\ create_client m false "S" "s" = Ok (client_text "s" client_packages "SClient" [c])
  /\ ~ cases_ok c /\ In "*Gone" (map fst (hd_exceptions k)) /\ answered k "*Gone" 404 /\ understood c 404 (Raised "*Oops").
Proof.
  set (l := ["type Oops Struct {"; "  message String"; "}"; "type Gone Struct {"; "  since String"; "}"; "http GET ""/x"" (operation=getX) {"; "  expect 200"; "  except 404 Oops"; "  except 404 Gone"; "}"]).
  exists l, (parse_of l), (mkHandler "GetX" "GET" "/x" [] false "200" [] None [("*Oops", "404"); ("*Gone", "404")]), (mkCM "GetX" "GET" "/x" [] None "200" [] [("*Oops", "404"); ("*Gone", "404")]).
  parsed. split; [vm_compute; reflexivity|]. split; [vm_compute; reflexivity|].
  assert (N : numeral "404" 404) by (apply numeral_fmt; vm_compute; reflexivity). assert (N2 : numeral "200" 200) by (apply numeral_fmt; vm_compute; reflexivity).
  split; [intros X; exact (X ["200"] "404" [] "404" [] eq_refl 404%Z N N)|]. split; [cbn; auto|]. split.
  - left. exists [("*Oops", "404")], "404", []. split; [reflexivity|]. split; [intros [X|[]]; discriminate|exact N].
  - right. split; [intros X; assert (Y := numeral_fun _ _ _ N2 X); discriminate|]. left. exists [], "*Oops", "404", [("*Gone", "404")]. repeat split; auto.
Qed.
Print Assumptions C111_declared_refuted.
