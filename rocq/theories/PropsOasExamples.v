(** C112, C113: the examples of a model in its OpenAPI document. *)
From Coq Require Import Permutation.
From Verif Require Import GoStr Outcome Value Schema Misc Model ParserValidate Parser OpenApi OasExamples
  SpecModel SpecPV SpecParser SpecGen SpecTrace SpecOpenApi SpecOasExamples FileFacts InvFacts InvNames ParsedFacts ModelFacts PVFacts OpenApiFacts TraceFacts OasExamplesFacts OasExamplesProofs
  Demo Lex PropsParser PropsTrace PropsExport.

(** ** C112 *)
(** The order in which the paths are met, and that it may change from example to example, make no difference. *)
Theorem C112_examples_exact : forall f64 sch m fuel doc order l, new_model sch = Ok m -> export_oas f64 m fuel = Ok doc ->
  (forall i, Permutation (od_paths doc) (order i)) -> maps_once sch -> export_examples m doc order 0 (sc_examples sch) [] = Ok l ->
  forall at_ n v, stands l at_ n v <-> last_landed sch at_ n v.
Proof.
  intros f64 sch m fuel doc order l Hm Hd OK D H at_ n v. rewrite (examples_stand f64 sch m Hm fuel doc Hd order OK _ 0 [] l D H). unfold last_landed. split.
  - intros [X|[X _]]; [exact X|]. destruct (last_nil _ _ X).
  - auto.
Qed.
Print Assumptions C112_examples_exact.

(** A type, two requests and a response of one action. *)
Definition oasx_head : list string :=
  [ "type Item Struct {"; "  label String"; "}";
    "http PUT ""/items/{id}?tag={label}"" (operation=putItem) {";
    "  id String"; "  label String";
    "  who String (header=""X-Who"")";
    "  body Item";
    "  expect 200 { body Item";
    "    id String (header=""X-Id"")"; "  }";
    "}" ].
Definition oasx_lines : list string := oasx_head ++
  [ "example Item { ""label"": ""i"" }";
    "example PutItemRequest (name=one) { ""id"": ""a"", ""label"": ""b"", ""who"": ""me"", ""body"": { ""label"": ""x"" } }";
    "example PutItemRequest (name=two) { ""id"": ""c"", ""label"": ""d"", ""who"": ""me"", ""body"": { } }";
    "example PutItemResponse (name=three) { ""body"": { ""label"": ""y"" } }";
    "example PutItemRequest (name=one) { ""id"": ""e"", ""label"": ""f"", ""who"": ""me"" }" ].
Definition doc_of (m : model) : oasdoc := match export_oas same m 9 with Ok d => d | _ => mkDoc [] [] end.
Definition shown_of (m : model) : result unit shown_examples :=
  export_examples m (doc_of m) (fun _ => od_paths (doc_of m)) 0 (sc_examples (m_schema m)) [].
Fixpoint once (l : list string) : bool := match l with [] => true | x :: r => negb (str_mem x r) && once r end.
Lemma once_NoDup l : once l = true -> NoDup l.
Proof.
  induction l as [|x l IH]; cbn [once]; intros H; [constructor|]. apply andb_true_iff in H as [N H]. constructor; [|exact (IH H)].
  intros I. apply str_mem_In in I. rewrite I in N. discriminate.
Qed.
Definition maps_once_test (sch : schema) : bool := forallb (fun ex => match ex_example ex with VMap l => once (map fst l) | _ => true end) (sc_examples sch).
Lemma maps_once_by_test sch : maps_once_test sch = true -> maps_once sch.
Proof.
  intros H ex l I E. assert (X := proj1 (forallb_forall _ _) H ex I). cbv beta in X. rewrite E in X. apply once_NoDup. exact X.
Qed.
Example C112_examples_case :
  new_model (m_schema (parse_of oasx_lines)) = Ok (parse_of oasx_lines)
  /\ export_oas same (parse_of oasx_lines) 9 = Ok (doc_of (parse_of oasx_lines))
  /\ maps_once (m_schema (parse_of oasx_lines))
  /\ exists l, shown_of (parse_of oasx_lines) = Ok l
     /\ stands l (AtType "Item") "" (VMap [("label", VPStr "i")])
     /\ stands l (AtParam "/items/{id}" "PUT" 0) "one" (VPStr "e")
     /\ stands l (AtBody "/items/{id}" "PUT") "one" (VMap [("label", VPStr "x")])
     /\ stands l (AtAnswer "/items/{id}" "PUT" "200") "three" (VMap [("label", VPStr "y")])
     /\ forall v, ~ stands l (AtParam "/items/{id}" "PUT" 1) "one" v.
Proof.
  split; [vm_compute; reflexivity|]. split; [vm_compute; reflexivity|]. split; [apply maps_once_by_test; vm_compute; reflexivity|].
  remember (shown_of (parse_of oasx_lines)) as r eqn:E. vm_compute in E. subst r. eexists. split; [reflexivity|].
  assert (G : forall (l1 l2 : shown_examples) a n v, (forall e, In e l2 -> fst e <> (a, n)) -> stands (l1 ++ (a, n, v) :: l2) a n v).
  { intros l1 l2 a n v N. exists l1, l2. split; [reflexivity|]. split; [reflexivity|exact N]. }
  split; [apply (G [] _); cbn [In fst]; intuition; subst; discriminate|].
  split; [apply (G [_; _; _; _; _; _] []); intros e []|].
  split; [apply (G [_; _] _); cbn [In fst]; intuition; subst; discriminate|].
  split; [apply (G [_; _; _; _; _] _); cbn [In fst]; intuition; subst; discriminate|].
  intros v H. apply last_in in H as [H _]. cbn [In] in H. intuition discriminate.
Qed.

(** The example of an input is shown on the parameter that stands for it when the parameter has the name of the
    input, the action is at the head of its path, and no later example of that name is put there. *)
Theorem C112_inputs_partial : forall f64 sch m fuel doc order l, new_model sch = Ok m -> export_oas f64 m fuel = Ok doc ->
  (forall i, Permutation (od_paths doc) (order i)) -> maps_once sch -> export_examples m doc order 0 (sc_examples sch) [] = Ok l ->
  forall exs1 ex exs2 p h i q v, sc_examples sch = exs1 ++ ex :: exs2 -> request_of sch ex p h -> parameter h i q ->
  written_name q (fd_name (ps_field q)) -> fd_name (ps_field q) <> "body" -> has_entry ex (fd_name (ps_field q)) v ->
  (forall ex' w, In ex' exs2 -> ~ lands sch ex' (AtParam p (h_method h) i) (ex_name ex) w) ->
  stands l (AtParam p (h_method h) i) (ex_name ex) v.
Proof.
  intros f64 sch m fuel doc order l Hm Hd OK D H exs1 ex exs2 p h i q v E R P W NB V N.
  apply (C112_examples_exact f64 sch m fuel doc order l Hm Hd OK D H).
  assert (L : lands sch ex (AtParam p (h_method h) i) (ex_name ex) v) by (apply (ln_param sch ex p h i q (fd_name (ps_field q))); auto).
  exists ex. split; [|exact L]. exists exs1, exs2. split; [exact E|]. split; [exists v; exact L|]. intros ex' I (w & X). exact (N ex' w I X).
Qed.
Print Assumptions C112_inputs_partial.
(** the first input of the second request: its hypotheses hold *)
Lemma lands_name sch ex p w i n v : lands sch ex (AtParam p w i) n v -> n = ex_name ex.
Proof. intros L. inversion L. reflexivity. Qed.
Example C112_inputs_case : let sch := m_schema (parse_of oasx_lines) in exists exs1 ex exs2 q, sc_examples sch = exs1 ++ ex :: exs2 /\ ex_name ex = "two"
  /\ request_of sch ex "/items/{id}" (http_of oasx_lines) /\ parameter (http_of oasx_lines) 0 q /\ written_name q (fd_name (ps_field q))
  /\ fd_name (ps_field q) <> "body" /\ has_entry ex (fd_name (ps_field q)) (VPStr "c")
  /\ (forall ex' w, In ex' exs2 -> ~ lands sch ex' (AtParam "/items/{id}" (h_method (http_of oasx_lines)) 0) (ex_name ex) w).
Proof.
  cbv zeta. remember (m_schema (parse_of oasx_lines)) as sch eqn:S. remember (http_of oasx_lines) as h eqn:H.
  vm_compute in S. vm_compute in H.
  assert (OP : on_path sch "/items/{id}" h).
  { split; [rewrite S, H; left; reflexivity|]. rewrite S, H. exact (cut_query_part "/items/{id}?tag={label}"). }
  assert (ON : forall h', In h' (sc_http sch) -> h' = h) by (rewrite S, H; intros h' [<-|[]]; reflexivity).
  assert (Q : exists q r, h_inputs h = q :: r /\ ps_path q = true /\ fd_name (ps_field q) = "id"
     /\ exists k, without is_body r k).
  { rewrite H. do 2 eexists. split; [reflexivity|]. split; [reflexivity|]. split; [reflexivity|]. eexists.
    apply wo_keep; [intros (_ & A & _); discriminate A|]. apply wo_keep; [intros (_ & _ & A); discriminate A|].
    apply wo_drop; [repeat split|]. apply wo_nil. }
  destruct Q as (q & r & Hq & Pq & Fq & k & Wk).
  assert (X : exists e1 ex e2, sc_examples sch = e1 ++ ex :: e2 /\ ex_name ex = "two" /\ ex_target ex = "PutItemRequest"
     /\ has_entry ex "id" (VPStr "c") /\ forall e, In e e2 -> ex_name e <> "two").
  { rewrite S. cbn [sc_examples]. eexists [_; _], _, [_; _]. split; [reflexivity|]. split; [reflexivity|]. split; [reflexivity|].
    split; [eexists; split; [reflexivity|left; reflexivity]|]. intros e [<-|[<-|[]]]; discriminate. }
  destruct X as (e1 & ex & e2 & Ee & Nn & Tt & En & Lt). exists e1, ex, e2, q.
  split; [exact Ee|]. split; [exact Nn|]. split.
  { split; [|split].
    - unfold for_a_request. rewrite Tt. split; [|exists "PutItem"; reflexivity]. rewrite S. intros (td & I & E). cbn in I. destruct I as [<-|[]]. discriminate E.
    - rewrite Tt. split; [exact (proj1 OP)|]. exists "PutItem". split; [reflexivity|]. rewrite H. apply small_first_iff. reflexivity.
    - split; [exact OP|]. split; [rewrite H; cbn; tauto|]. intros h' [I _] (l1 & l2 & l3 & E). rewrite (ON h' I) in E.
      assert (ND : NoDup written_methods) by (repeat constructor; cbn; intuition discriminate). rewrite E in ND.
      apply NoDup_remove_2 in ND. apply ND. apply in_or_app. right. apply in_or_app. right. left. reflexivity. }
  split; [exists (q :: k); split; [rewrite Hq; apply wo_keep; [intros (A & _); congruence|exact Wk]|reflexivity]|].
  split; [left; split; [exact Pq|reflexivity]|]. rewrite Fq. split; [discriminate|]. split; [exact En|].
  intros ex' w I L. apply lands_name in L. apply (Lt ex' I). congruence.
Qed.

(** Without these conditions it is lost: the example of a header, or of a query parameter with another name, is shown
    nowhere; and the example of a response header replaces the one of the path parameter of the same name. *)
Definition oasx_lost : list string := oasx_head ++
  [ "example PutItemRequest { ""id"": ""a"", ""label"": ""b"", ""who"": ""me"", ""body"": { ""label"": ""x"" } }";
    "example PutItemResponse { ""id"": ""z"", ""body"": { ""label"": ""y"" } }" ].
Theorem C112_inputs_refuted : exists text m doc l, parse_sadl_string demo_ext no_files 0 9 text = Ok m /\ export_oas same m 9 = Ok doc
  /\ export_examples m doc (fun _ => od_paths doc) 0 (sc_examples (m_schema m)) [] = Ok l
  /\ exists ex h, In ex (sc_examples (m_schema m)) /\ names_action (m_schema m) "Request" (ex_target ex) h
     /\ (exists q, In q (h_inputs h) /\ fd_name (ps_field q) = "who" /\ has_entry ex "who" (VPStr "me") /\ forall at_ n, ~ stands l at_ n (VPStr "me"))
     /\ (exists q, In q (h_inputs h) /\ fd_name (ps_field q) = "label" /\ has_entry ex "label" (VPStr "b") /\ forall at_ n, ~ stands l at_ n (VPStr "b"))
     /\ (exists q, In q (h_inputs h) /\ fd_name (ps_field q) = "id" /\ has_entry ex "id" (VPStr "a") /\ forall at_ n, ~ stands l at_ n (VPStr "a"))
     /\ stands l (AtParam "/items/{id}" "PUT" 0) "" (VPStr "z").
Proof.
  exists (src oasx_lost), (parse_of oasx_lost), (doc_of (parse_of oasx_lost)),
    [(AtParam "/items/{id}" "PUT" 0, "", VPStr "a"); (AtBody "/items/{id}" "PUT", "", VMap [("label", VPStr "x")]);
     (AtParam "/items/{id}" "PUT" 0, "", VPStr "z"); (AtAnswer "/items/{id}" "PUT" "200", "", VMap [("label", VPStr "y")])].
  split; [vm_compute; reflexivity|]. split; [vm_compute; reflexivity|]. split; [vm_compute; reflexivity|].
  exists (hd (mkEx "" "" VNil "" []) (sc_examples (m_schema (parse_of oasx_lost)))), (http_of oasx_lost).
  split; [vm_compute; left; reflexivity|]. split.
  { split; [vm_compute; left; reflexivity|]. exists "PutItem". split; [vm_compute; reflexivity|]. apply small_first_iff. vm_compute. reflexivity. }
  assert (IN : forall l (at_ : place) n v, stands l at_ n v -> In v (map snd l)).
  { intros l at_ n v S. apply last_in in S as [S _]. apply (in_map snd) in S. exact S. }
  split; [eexists; split; [vm_compute; right; right; left; reflexivity|]; split; [reflexivity|]; split; [eexists; split; [vm_compute; reflexivity|cbn; auto]|]|].
  { intros at_ n S. apply IN in S. cbn [map snd In] in S. intuition discriminate. }
  split; [eexists; split; [vm_compute; right; left; reflexivity|]; split; [reflexivity|]; split; [eexists; split; [vm_compute; reflexivity|cbn; auto]|]|].
  { intros at_ n S. apply IN in S. cbn [map snd In] in S. intuition discriminate. }
  split; [eexists; split; [vm_compute; left; reflexivity|]; split; [reflexivity|]; split; [eexists; split; [vm_compute; reflexivity|cbn; auto]|]|].
  { intros at_ n (l1 & l2 & X & F & N). destruct l1 as [|x l1].
    - injection X as <- <- <-. apply (N (AtParam "/items/{id}" "PUT" 0, "", VPStr "z")); [cbn; auto|reflexivity].
    - injection X as _ X. assert (I : In (VPStr "a") (map snd (l1 ++ (at_, n, VPStr "a") :: l2))).
      { rewrite map_app. apply in_or_app. right. left. reflexivity. }
      rewrite <- X in I. cbn [map snd In] in I. intuition discriminate. }
  exists [(AtParam "/items/{id}" "PUT" 0, "", VPStr "a"); (AtBody "/items/{id}" "PUT", "", VMap [("label", VPStr "x")])],
    [(AtAnswer "/items/{id}" "PUT" "200", "", VMap [("label", VPStr "y")])].
  split; [reflexivity|]. split; [reflexivity|]. cbn [In fst]. intros e [<-|[]]. discriminate.
Qed.
Print Assumptions C112_inputs_refuted.

(** ** C113 *)
(** Writing the examples succeeds in every order of the paths exactly when none of them breaks and, if one is for a
    request or a response, every path has an operation. *)
Theorem C113_examples_exact : forall f64 sch m fuel doc, new_model sch = Ok m -> export_oas f64 m fuel = Ok doc ->
  ((forall order, (forall i, Permutation (od_paths doc) (order i)) -> exists l, export_examples m doc order 0 (sc_examples sch) [] = Ok l) <->
   (forall ex, In ex (sc_examples sch) -> ~ breaks sch ex)
   /\ ((exists ex, In ex (sc_examples sch) /\ (for_a_request sch ex \/ for_a_response sch ex)) -> ~ exists p, bare_path sch p)).
Proof. intros f64 sch m fuel doc Hm Hd. exact (examples_exact f64 sch m Hm fuel doc Hd). Qed.
Print Assumptions C113_examples_exact.

(** One that breaks stops the export in every order, and without a bare path nothing else does; there is no error. *)
Theorem C113_crashes_exact : forall f64 sch m fuel doc order, new_model sch = Ok m -> export_oas f64 m fuel = Ok doc ->
  (forall i, Permutation (od_paths doc) (order i)) ->
  ((exists ex, In ex (sc_examples sch) /\ breaks sch ex) -> export_examples m doc order 0 (sc_examples sch) [] = Panic)
  /\ ((forall p, ~ bare_path sch p) -> export_examples m doc order 0 (sc_examples sch) [] = Panic -> exists ex, In ex (sc_examples sch) /\ breaks sch ex)
  /\ (export_examples m doc order 0 (sc_examples sch) [] = Panic \/ exists l, export_examples m doc order 0 (sc_examples sch) [] = Ok l).
Proof.
  intros f64 sch m fuel doc order Hm Hd OK. split; [exact (examples_break f64 sch m Hm fuel doc Hd order OK _ 0 [])|]. split.
  - intros NB H. exact (examples_blame f64 sch m Hm fuel doc Hd order OK NB _ 0 [] H).
  - exact (examples_total f64 sch m Hm fuel doc Hd order OK _ 0 []).
Qed.
Print Assumptions C113_crashes_exact.
(** [oasx_lines]: there is no bare path and nothing breaks. *)
Lemma single_order {A} (x : A) order : (forall i : nat, Permutation [x] (order i)) -> forall i, order i = [x].
Proof. intros H i. exact (Permutation_length_1_inv (H i)). Qed.
Lemma examples_ext m doc o o' : (forall i, o i = o' i) -> forall exs i acc, export_examples m doc o i exs acc = export_examples m doc o' i exs acc.
Proof.
  intros E. induction exs as [|ex exs IH]; intros i acc; cbn [export_examples]; [reflexivity|]. rewrite E. destruct (export_example _ _ _ _ _); cbn [rbind]; auto.
Qed.
Lemma single_doc m doc x r : od_paths doc = [x] -> export_examples m doc (fun _ => [x]) 0 (sc_examples (m_schema m)) [] = r ->
  forall order, (forall i, Permutation (od_paths doc) (order i)) -> export_examples m doc order 0 (sc_examples (m_schema m)) [] = r.
Proof. intros E H order OK. rewrite E in OK. rewrite (examples_ext m doc order (fun _ => [x]) (single_order x order OK)). exact H. Qed.
Definition one_path (m : model) : option (string * pathitem) := match od_paths (doc_of m) with [x] => Some x | _ => None end.
Lemma one_path_doc m x r : one_path m = Some x -> export_examples m (doc_of m) (fun _ => [x]) 0 (sc_examples (m_schema m)) [] = r ->
  forall order, (forall i, Permutation (od_paths (doc_of m)) (order i)) -> export_examples m (doc_of m) order 0 (sc_examples (m_schema m)) [] = r.
Proof.
  intros E H. apply (single_doc m (doc_of m) x r); [|exact H]. unfold one_path in E. destruct (od_paths (doc_of m)) as [|y [|z l]]; try discriminate. congruence.
Qed.
(** the export of all but the examples succeeds, there is one path, and the examples give that in every order *)
Definition always (m : model) (ok : bool) : bool :=
  match one_path m with
  | Some x => match export_examples m (doc_of m) (fun _ => [x]) 0 (sc_examples (m_schema m)) [] with
              | Ok _ => ok
              | Panic => negb ok
              | _ => false
              end
  | None => false
  end.
Lemma always_ok m : always m true = true -> forall order, (forall i, Permutation (od_paths (doc_of m)) (order i)) ->
  exists l, export_examples m (doc_of m) order 0 (sc_examples (m_schema m)) [] = Ok l.
Proof.
  unfold always. destruct (one_path m) as [x|] eqn:E; [|discriminate]. destruct (export_examples m (doc_of m) (fun _ => [x]) 0 _ _) as [l| | |] eqn:H; try discriminate.
  intros _ order OK. exists l. exact (one_path_doc m x _ E H order OK).
Qed.
Lemma always_panic m : always m false = true -> forall order, (forall i, Permutation (od_paths (doc_of m)) (order i)) ->
  export_examples m (doc_of m) order 0 (sc_examples (m_schema m)) [] = Panic.
Proof.
  unfold always. destruct (one_path m) as [x|] eqn:E; [|discriminate]. destruct (export_examples m (doc_of m) (fun _ => [x]) 0 _ _) as [l| | |] eqn:H; try discriminate.
  intros _ order OK. exact (one_path_doc m x _ E H order OK).
Qed.
Example C113_examples_case : new_model (m_schema (parse_of oasx_lines)) = Ok (parse_of oasx_lines)
  /\ export_oas same (parse_of oasx_lines) 9 = Ok (doc_of (parse_of oasx_lines))
  /\ length (sc_examples (m_schema (parse_of oasx_lines))) = 5
  /\ (forall ex, In ex (sc_examples (m_schema (parse_of oasx_lines))) -> ~ breaks (m_schema (parse_of oasx_lines)) ex)
  /\ ~ exists p, bare_path (m_schema (parse_of oasx_lines)) p.
Proof.
  assert (Hm : new_model (m_schema (parse_of oasx_lines)) = Ok (parse_of oasx_lines)) by (vm_compute; reflexivity).
  assert (Hd : export_oas same (parse_of oasx_lines) 9 = Ok (doc_of (parse_of oasx_lines))) by (vm_compute; reflexivity).
  assert (A : always (parse_of oasx_lines) true = true) by (vm_compute; reflexivity).
  assert (LK : exists ex, In ex (sc_examples (m_schema (parse_of oasx_lines))) /\ has_suffix "Request" (ex_target ex) = true
     /\ get (ex_target ex) (od_schemas (doc_of (parse_of oasx_lines))) = None).
  { eexists. split; [vm_compute; right; left; reflexivity|]. split; vm_compute; reflexivity. }
  assert (LN : length (sc_examples (m_schema (parse_of oasx_lines))) = 5) by (vm_compute; reflexivity).
  split; [exact Hm|]. split; [exact Hd|]. split; [exact LN|]. assert (X := always_ok _ A). clear A LN.
  revert Hm Hd LK X. generalize (doc_of (parse_of oasx_lines)). generalize (parse_of oasx_lines). intros m doc Hm Hd (ex & I & S & G) X.
  apply (C113_examples_exact same _ m 9 doc Hm Hd) in X as [NB NP]. split; [exact NB|]. apply NP. exists ex. split; [exact I|]. left.
  split; [|apply has_suffix_spec; exact S]. apply (target_schema same _ m Hm 9 doc Hd). exact G.
Qed.

(** Sources that are accepted and whose document, but for the examples, can be written, and that cannot be exported: an
    example for the response of the second action of a path; one for a path parameter called body; one for a response
    without content; one for a field whose name ends in Response. *)
Definition second_action : list string :=
  [ "http GET ""/items"" (operation=getItems) {"; "  expect 200 { body String"; "  }"; "}";
    "http POST ""/items"" (operation=addItem) {"; "  body String"; "  expect 201 { body String"; "  }"; "}";
    "example AddItemResponse { ""body"": ""x"" }" ].
Definition path_body : list string :=
  [ "http GET ""/items/{body}"" (operation=getItem) {"; "  body String"; "  expect 204"; "}";
    "example GetItemRequest { ""body"": ""x"" }" ].
Definition no_content_lines : list string :=
  [ "http DELETE ""/items/{id}"" (operation=deleteItem) {"; "  id String"; "  expect 204"; "}";
    "example DeleteItemResponse { ""body"": ""x"" }" ].
Definition field_response : list string :=
  [ "type Mail Struct {"; "  theResponse String"; "}";
    "http GET ""/mail"" (operation=getMail) {"; "  expect 200 { body Mail"; "  }"; "}";
    "example Mail.theResponse ""x""" ].
Theorem C113_crash_refuted : forall ls, In ls [second_action; path_body; no_content_lines; field_response] ->
  exists m doc, parse_sadl_string demo_ext no_files 0 9 (src ls) = Ok m /\ export_oas same m 9 = Ok doc
  /\ forall order, (forall i, Permutation (od_paths doc) (order i)) -> export_examples m doc order 0 (sc_examples (m_schema m)) [] = Panic.
Proof.
  assert (G : forall ls, parse_sadl_string demo_ext no_files 0 9 (src ls) = Ok (parse_of ls) ->
    export_oas same (parse_of ls) 9 = Ok (doc_of (parse_of ls)) -> always (parse_of ls) false = true ->
    exists m doc, parse_sadl_string demo_ext no_files 0 9 (src ls) = Ok m /\ export_oas same m 9 = Ok doc
    /\ forall order, (forall i, Permutation (od_paths doc) (order i)) -> export_examples m doc order 0 (sc_examples (m_schema m)) [] = Panic).
  { intros ls A B C. exists (parse_of ls), (doc_of (parse_of ls)). split; [exact A|]. split; [exact B|]. exact (always_panic _ C). }
  intros ls [<-|[<-|[<-|[<-|[]]]]]; apply G; vm_compute; reflexivity.
Qed.
Print Assumptions C113_crash_refuted.

(** Whether a source with a PATCH action can be exported depends on the order of a Go map. *)
Definition patch_lines : list string :=
  [ "http GET ""/items"" (operation=getItems) {"; "  expect 200 { body String"; "  }"; "}";
    "http PATCH ""/items/{id}"" (operation=changeItem) {"; "  id String"; "  body String"; "  expect 200 { body String"; "  }"; "}";
    "example GetItemsResponse { ""body"": ""x"" }" ].
Theorem C113_order_refuted : exists text m doc order order', parse_sadl_string demo_ext no_files 0 9 text = Ok m /\ export_oas same m 9 = Ok doc
  /\ (forall i, Permutation (od_paths doc) (order i)) /\ (forall i, Permutation (od_paths doc) (order' i))
  /\ (exists l, export_examples m doc order 0 (sc_examples (m_schema m)) [] = Ok l)
  /\ export_examples m doc order' 0 (sc_examples (m_schema m)) [] = Panic.
Proof.
  exists (src patch_lines), (parse_of patch_lines), (doc_of (parse_of patch_lines)), (fun _ => od_paths (doc_of (parse_of patch_lines))),
    (fun _ => rev (od_paths (doc_of (parse_of patch_lines)))).
  split; [vm_compute; reflexivity|]. split; [vm_compute; reflexivity|]. split; [intros _; apply Permutation_refl|]. split; [intros _; apply Permutation_rev|].
  split; [|vm_compute; reflexivity]. exists [(AtAnswer "/items" "GET" "200", "", VPStr "x")]. vm_compute. reflexivity.
Qed.
Print Assumptions C113_order_refuted.

(** What is left: examples that conform, for types, requests and responses only, of actions that each are at the head
    of their path, with a "body" only where there is one to put it on. *)
Lemma no_field sch ex ts : for_a_request sch ex \/ for_a_response sch ex -> no_char "." (ex_target ex) -> ~ target_type sch (ex_target ex) ts.
Proof.
  intros F ND T. assert (ND' : ~ declared sch (ex_target ex)) by (destruct F as [[A _]|[A _]]; exact A).
  remember (ex_target ex) as t eqn:Et. destruct T as [n ts D|u f ts fs1 fd fs2 _ _ _ _ _ _ _ _].
  - destruct D as (td & [[B _]|[I E]] & _); [|apply ND'; exists td; auto].
    assert (S : (exists x, n = x +++ "Request") \/ exists x, n = x +++ "Response").
    { rewrite Et. destruct F as [[_ X]|[_ [_ X]]]; [left|right]; exact X. }
    assert (X : has_suffix "Request" n || has_suffix "Response" n = true).
    { apply Bool.orb_true_iff. destruct S as [S|S]; apply has_suffix_spec in S; auto. }
    clear -B X. revert n B X. assert (Y : forallb (fun n => negb (has_suffix "Request" n || has_suffix "Response" n)) builtin_names = true) by (vm_compute; reflexivity).
    intros n B X. assert (Z := proj1 (forallb_forall _ _) Y n B). cbv beta in Z. rewrite X in Z. discriminate.
  - apply ND. exists u, f. reflexivity.
Qed.
Theorem C113_safe_partial : forall X f64 sch m fuel doc order, new_model sch = Ok m -> export_oas f64 m fuel = Ok doc ->
  (forall i, Permutation (od_paths doc) (order i)) ->
  (forall ex, In ex (sc_examples sch) -> example_ok X sch ex /\ no_char "." (ex_target ex)) ->
  (forall p h, on_path sch p h -> leads sch p h) ->
  (forall ex v h, In ex (sc_examples sch) -> has_entry ex "body" v ->
     (names_action sch "Request" (ex_target ex) h -> exists q, In q (h_inputs h) /\ is_body q)
     /\ (names_action sch "Response" (ex_target ex) h -> has_json h)) ->
  exists l, export_examples m doc order 0 (sc_examples sch) [] = Ok l.
Proof.
  intros X f64 sch m fuel doc order Hm Hd OK EX LD BD. apply (examples_go f64 sch m Hm fuel doc Hd order OK _ 0 []).
  - intros ex I B. destruct (EX ex I) as [E ND].
    assert (NT : for_a_request sch ex \/ for_a_response sch ex -> ~ exists ts, target_type sch (ex_target ex) ts /\ accepts X sch ts (ex_example ex)).
    { intros F (ts & T & _). exact (no_field sch ex ts F ND T). }
    assert (OBJ : for_a_request sch ex \/ for_a_response sch ex -> object (ex_example ex)).
    { intros F. destruct E as [E|[_ [(h & _ & (l & E & _))|(_ & h & x & _ & _ & (l & E & _))]]]; [destruct (NT F E)|exists l; exact E|exists l; exact E]. }
    destruct B as [p h R NO|p h v R V NB|F NO|p h R NO|p h v R V NJ].
    + apply NO, OBJ. left. exact (proj1 R).
    + destruct (proj1 (BD ex v h I V) (proj1 (proj2 R))) as (q & Iq & IB). exact (NB q Iq IB).
    + destruct E as [E|[_ [(h & (_ & n & T & _) & _)|(_ & h & x & N & _)]]]; [exact (NT (or_intror F) E)| |].
      * destruct F as (_ & NR & _). apply NR. exists n. exact T.
      * set (p := cut_query (sc_base sch +++ h_path h)). assert (P : on_path sch p h) by (split; [exact (proj1 N)|apply cut_query_part]).
        exact (NO p h (conj F (conj N (LD p h P)))).
    + apply NO, OBJ. right. exact (proj1 R).
    + exact (NJ (proj2 (BD ex v h I V) (proj1 (proj2 R)))).
  - intros ex _ _ (p & (h & P) & N). exact (N h P (proj1 (proj2 (LD p h P)))).
Qed.
Print Assumptions C113_safe_partial.
Lemma single_safe sch h : sc_http sch = [h] -> In (h_method h) written_methods -> (exists q, In q (h_inputs h) /\ is_body q) -> has_json h ->
  (forall p h', on_path sch p h' -> leads sch p h')
  /\ forall ex v h', In ex (sc_examples sch) -> has_entry ex "body" v ->
     (names_action sch "Request" (ex_target ex) h' -> exists q, In q (h_inputs h') /\ is_body q)
     /\ (names_action sch "Response" (ex_target ex) h' -> has_json h').
Proof.
  intros E W B J. assert (ONE : forall h', In h' (sc_http sch) -> h' = h) by (intros h' I; rewrite E in I; destruct I as [<-|[]]; reflexivity). split.
  - intros p h' P. assert (h' = h) by exact (ONE h' (proj1 P)). subst h'. split; [exact P|]. split; [exact W|]. intros h2 P2 A. rewrite (ONE h2 (proj1 P2)) in A.
    apply ahead_iff in A. cbn [In] in A. destruct A as [A|[A|[A|[A|[A|[A|[]]]]]]]; injection A as A1 A2; congruence.
  - intros ex v h' _ _. split; intros N; rewrite (ONE h' (proj1 N)); assumption.
Qed.
Example C113_safe_case : let sch := m_schema (parse_of oasx_lines) in
  (forall ex, In ex (sc_examples sch) -> example_ok demo_ext sch ex /\ no_char "." (ex_target ex))
  /\ (forall p h, on_path sch p h -> leads sch p h)
  /\ (forall ex v h, In ex (sc_examples sch) -> has_entry ex "body" v ->
       (names_action sch "Request" (ex_target ex) h -> exists q, In q (h_inputs h) /\ is_body q)
       /\ (names_action sch "Response" (ex_target ex) h -> has_json h)).
Proof.
  cbv zeta.
  assert (P : parse_sadl_string demo_ext no_files 0 9 (src oasx_lines) = Ok (parse_of oasx_lines)) by (vm_compute; reflexivity).
  assert (S : symbols_have_text (src oasx_lines)) by (apply symbols_by_test; vm_compute; reflexivity).
  assert (D : forallb (fun ex => negb (smem "." (ex_target ex))) (sc_examples (m_schema (parse_of oasx_lines))) = true) by (vm_compute; reflexivity).
  assert (H : sc_http (m_schema (parse_of oasx_lines)) = [http_of oasx_lines]) by (vm_compute; reflexivity).
  assert (W : In (h_method (http_of oasx_lines)) written_methods) by (vm_compute; auto).
  assert (B : exists q, In q (h_inputs (http_of oasx_lines)) /\ is_body q).
  { eexists. split; [vm_compute; right; right; right; left; reflexivity|]. repeat split. }
  assert (J : has_json (http_of oasx_lines)).
  { eexists. split; [vm_compute; reflexivity|]. left. eexists. split; [left; reflexivity|reflexivity]. }
  split; [|exact (single_safe _ _ H W B J)]. intros ex I. split.
  - apply (parsed_checked demo_ext no_files no_files_text 0 9 (parse_of oasx_lines)); [|exact I]. left. exists (src oasx_lines). split; [exact S|exact P].
  - assert (X := proj1 (forallb_forall _ _) D ex I). cbv beta in X. apply no_char_smem. destruct (smem "." (ex_target ex)); [discriminate|reflexivity].
Qed.
