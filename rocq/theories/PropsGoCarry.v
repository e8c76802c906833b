(** C109: what a call of the generated client brings to the generated server. *)
From Verif Require Import GoStr Outcome Value Schema Scalars Time Model Misc ParserValidate Scan Parser Generator Golang GoModel GoServer GoClient
  SpecTime SpecModel SpecMisc SpecPV SpecParser SpecTrace SpecGo SpecGoServer SpecGoClient SpecGoCall ModelFacts PVFacts Demo Lex FileFacts InvFacts InvNames ParsedFacts PropsParser
  TraceFacts PropsTrace TraceFill GoModelFacts GoText GoServerFacts GoClientFacts GoRoute GoReceive GoCall GoAnswer PropsGoServer PropsGoClient PropsGoCall.
From Coq Require Import Lia.

(** ** C109 *)
(** the inputs in the query *)
Theorem C109_query_partial : forall sch m, new_model sch = Ok m -> forall sprint instant stamp runtime, functional instant ->
  forall h k c, handler_shown sprint instant stamp sch runtime h k -> method_shown sch runtime h c ->
  forall a u, carried sch h a -> no_char "#" (cm_route c) -> no_char "%" (cm_route c) -> address c a u ->
  exists kvs, read_address u = Some (cm_route c, kvs)
  /\ forall rq n p i f, rq_query rq = kvs -> nth_error (h_inputs h) n = Some p -> nth_error (hd_inputs k) n = Some i -> ps_query p <> "" ->
       large_first (fd_name (ps_field p)) f -> (zero_call (a f) -> declared_default sch (ps_field p) (a f) /\ forall s, fd_default (ps_field p) <> VPStr s) ->
       forall v, receives instant sch rq p i v <-> v = a f.
Proof.
  intros sch m Hm sprint instant stamp rt FI h k c (x & _ & _ & _ & _ & _ & F & _) M a u C N1 N2 A.
  destruct (query_carried sch m Hm sprint instant stamp rt FI h c a u M C N1 N2 A) as (kvs & R & G). exists kvs. split; [exact R|].
  intros rq n p i f Q P I NQ L Z. destruct (Forall2_nth _ _ _ F n p P) as (i' & I' & IS). assert (i' = i) as -> by congruence.
  exact (G rq p i f Q (nth_error_In _ _ P) NQ IS L Z).
Qed.
Print Assumptions C109_query_partial.
Lemma two_inputs sch m h c p0 p1 ts : new_model sch = Ok m -> method_shown sch false h c -> h_inputs h = [p0; p1] ->
  fd_name (ps_field p0) = "max" -> fd_name (ps_field p1) = "tag" -> ps_query p0 = "max" -> ps_query p1 = "tag" ->
  ts_type (fd_spec (ps_field p0)) = "Score" -> ts_type (fd_spec (ps_field p1)) = "String" -> defines sch "Score" ts -> ts_type ts = "Int8" ->
  path_part (h_path h) "/items" -> let a := fun f => if f =?s "Max" then RInt (-7) else RText "new_1" in
  carried sch h a /\ no_char "#" (cm_route c) /\ no_char "%" (cm_route c) /\ address c a "/items?max=-7&tag=new_1"
  /\ forall p f, In p (h_inputs h) -> large_first (fd_name (ps_field p)) f -> ~ zero_call (a f).
Proof.
  intros Hm (x & _ & _ & _ & P & QS & _) I0 N0 N1 Q0 Q1 T0 T1 DS ES PP a.
  assert (LM : forall f, large_first "max" f -> f = "Max") by (intros f L; apply large_first_iff in L; rewrite <- L; reflexivity).
  assert (LT : forall f, large_first "tag" f -> f = "Tag") by (intros f L; apply large_first_iff in L; rewrite <- L; reflexivity).
  assert (R : cm_route c = "/items") by (eapply path_part_fun; [exact P|exact PP]).
  rewrite R. split; [|split; [apply no_char_smem; reflexivity|split; [apply no_char_smem; reflexivity|split]]].
  - split; rewrite I0; [|cbn [flat_map app]; rewrite Q0, Q1; cbn; constructor; [intros [X|[]]; discriminate|constructor; [intros []|constructor]]].
    intros p [<-|[<-|[]]] _.
    + split; [unfold same_key; rewrite Q0, N0; split; [reflexivity|cbn; auto]|]. rewrite N0, T0. intros f L. rewrite (LM f L). cbn.
      eapply (ca_int _ _ _ 8%Z); [exact DS|rewrite ES; cbn; auto|unfold in_bits; cbn; lia].
    + split; [unfold same_key; rewrite Q1, N1; split; [reflexivity|cbn; auto]|]. rewrite N1, T1. intros f L. rewrite (LT f L). cbn.
      eapply ca_text; [apply string_defined|reflexivity|cbn; auto 20].
  - exists ["max=-7"; "tag=new_1"]. split; [|rewrite R; reflexivity]. rewrite I0 in QS. clear -QS Q0 Q1 N0 N1 T0 T1 LM LT DS ES Hm.
    inversion QS as [|? ? ? E|p ps l f b z v NE L B PF QS1]; subst; [rewrite Q0 in E; discriminate|].
    inversion QS1 as [|? ? ? E|p ps l' f' b' z' v' NE' L' B' PF' QS2]; subst; [rewrite Q1 in E; discriminate|]. inversion QS2; subst.
    rewrite N0 in *. rewrite N1 in *. rewrite T0 in B. rewrite T1 in B'. apply LM in L as ->. apply LT in L' as ->.
    assert (b = "Int8") as ->.
    { destruct B as [(ts' & D & ->)|[NK _]]; [|destruct NK; eexists; exact DS]. assert (ts' = ts) as -> by (eapply defines_fun; [exact Hm|exact D|exact DS]). exact ES. }
    assert (b' = "String") as ->.
    { destruct B' as [(ts' & D & ->)|[NK _]]; [|destruct NK; eexists; apply string_defined]. assert (ts' = ts_of "String") as -> by (eapply defines_fun; [exact Hm|exact D|apply string_defined]). reflexivity. }
    assert (z = "0" /\ v = "%d") as [-> ->] by (clear -PF; inversion PF; subst; try discriminate; auto; cbn in *; intuition discriminate).
    assert (z' = """""" /\ v' = "%s") as [-> ->] by (clear -PF'; inversion PF'; subst; try discriminate; auto; cbn in *; intuition discriminate).
    refine (ag_put a (mkCQ "Max" "0" "max" "%d") _ _ "-7" _ _ _); [intros [[X _]|[_ X]]; discriminate|cbn; constructor; apply numeral_fmt; vm_compute; reflexivity|].
    refine (ag_put a (mkCQ "Tag" """""" "tag" "%s") _ _ "new_1" _ _ _); [intros [[_ X]|[X _]]; discriminate|cbn; constructor|constructor].
  - rewrite I0. intros p f [<-|[<-|[]]]; [rewrite N0; intros L; rewrite (LM f L)|rewrite N1; intros L; rewrite (LT f L)]; intros [X|X]; discriminate.
Qed.
Example C109_query_case : exists k c a, handler_shown toy_print toy_instant toy_stamp call_schema false call_action k /\ method_shown call_schema false call_action c
  /\ carried call_schema call_action a /\ no_char "#" (cm_route c) /\ no_char "%" (cm_route c) /\ address c a "/items?max=-7&tag=new_1"
  /\ forall p f, In p (h_inputs call_action) -> large_first (fd_name (ps_field p)) f -> ~ zero_call (a f).
Proof.
  destruct (handler_exists call_schema _ toy_print toy_time false call_action call_model call_server call_in) as (k & K). exists k.
  destruct (method_exists call_schema _ false call_action call_model call_client call_in) as (c & C). exists c.
  exists (fun f => if f =?s "Max" then RInt (-7) else RText "new_1"). split; [exact K|]. split; [exact C|].
  apply (two_inputs call_schema (parse_of call_lines) call_action c (input_at call_lines 0) (input_at call_lines 1) (td_spec (nth 1 (sc_types call_schema) (tdef "" (ts_of "")))));
    [exact call_model|exact C|vm_compute; reflexivity..|exact score_defined|vm_compute; reflexivity|].
  assert (E : h_path call_action = "/items?max={max}&tag={tag}") by (vm_compute; reflexivity). rewrite E.
  split; [apply no_char_smem; reflexivity|]. right. exists "max={max}&tag={tag}". reflexivity.
Qed.
(** An input in the path never comes: the method sends the path as it is declared, and the handler takes the name in braces for the value. *)
Theorem C109_path_refuted : forall sch m, new_model sch = Ok m -> forall sprint instant stamp runtime, functional instant ->
  forall h k c, handler_shown sprint instant stamp sch runtime h k -> method_shown sch runtime h c ->
  forall l, segmented h l -> (exists vs, accepted (hd_route k) (cm_route c) vs)
  /\ forall n p i, nth_error (h_inputs h) n = Some p -> nth_error (hd_inputs k) n = Some i -> ps_query p = "" -> ps_header p = "" -> ps_path p = true ->
       In (fd_name (ps_field p)) (vars_of l) -> (exists ts, defines sch (ts_type (fd_spec (ps_field p))) ts /\ ts_type ts = "String") ->
       forall rq, accepted (hd_route k) (cm_route c) (rq_vars rq) ->
       forall v, receives instant sch rq p i v <-> v = RText ("{" +++ fd_name (ps_field p) +++ "}").
Proof.
  intros sch m Hm sprint instant stamp rt FI h k c K (x' & _ & _ & _ & CP & _) l (P & S & ND).
  destruct (routed_shown _ _ _ _ _ _ _ K) as [_ KP]. rewrite (path_part_fun _ _ _ KP P), (path_part_fun _ _ _ CP P).
  split; [exact (unfilled_accepted l S ND)|]. intros n p i PN IN Q H PP V (ts & D & T) rq A v.
  eapply (C108_values_partial sch m Hm sprint instant stamp rt FI h k K n p i PN IN rq); [apply pl_path; auto; exact (unfilled l _ S ND A _ V)| |intros [t X]; discriminate].
  eapply sd_text; [discriminate|exact D|rewrite T; cbn; auto].
Qed.
Print Assumptions C109_path_refuted.
Definition path_lines : list string := ["http GET ""/x/{id}"" (operation=getX) {"; "  id String"; "  expect 200"; "}"].
Example C109_path_refuted_case : exists k c, new_model (m_schema (parse_of path_lines)) = Ok (parse_of path_lines)
  /\ handler_shown toy_print toy_instant toy_stamp (m_schema (parse_of path_lines)) false (http_of path_lines) k
  /\ method_shown (m_schema (parse_of path_lines)) false (http_of path_lines) c /\ segmented (http_of path_lines) [Fixed "x"; Var "id"]
  /\ nth_error (h_inputs (http_of path_lines)) 0 = Some (input_at path_lines 0) /\ ps_query (input_at path_lines 0) = "" /\ ps_header (input_at path_lines 0) = ""
  /\ ps_path (input_at path_lines 0) = true /\ In (fd_name (ps_field (input_at path_lines 0))) (vars_of [Fixed "x"; Var "id"]).
Proof.
  set (sch := m_schema (parse_of path_lines)).
  assert (Hm : new_model sch = Ok (parse_of path_lines)) by (vm_compute; reflexivity).
  assert (SF : ~ server_fails sch).
  { intros F. destruct (server_total sch _ Hm false toy_print toy_time "S" "s") as [[E _]|(N & _)]; [|contradiction].
    assert (X : match create_server toy_print toy_time (parse_of path_lines) false "S" "s" with Err _ => true | _ => false end = false) by (vm_compute; reflexivity).
    rewrite E in X. discriminate. }
  assert (CF : ~ client_fails sch).
  { intros F. destruct (client_total sch _ Hm false "S" "s") as [[E _]|(N & _)]; [|contradiction].
    assert (X : match create_client (parse_of path_lines) false "S" "s" with Err _ => true | _ => false end = false) by (vm_compute; reflexivity).
    rewrite E in X. discriminate. }
  assert (I : In (http_of path_lines) (sc_http sch)) by (vm_compute; left; reflexivity).
  destruct (handler_exists sch _ toy_print toy_time false _ Hm SF I) as (k & K). destruct (method_exists sch _ false _ Hm CF I) as (c & C). exists k, c.
  split; [exact Hm|]. split; [exact K|]. split; [exact C|]. split; [|repeat split; vm_compute; auto].
  split; [assert (E : h_path (http_of path_lines) = "/x/{id}") by (vm_compute; reflexivity); rewrite E; split; [apply no_char_smem; reflexivity|left; reflexivity]|].
  split; [|cbn; constructor; [intros []|constructor]]. constructor; [cbn; repeat split; apply no_char_smem; reflexivity|].
  constructor; [cbn; repeat split; [discriminate|apply no_char_smem; reflexivity..]|constructor].
Qed.
(** Inputs in the query that do not come: a parameter with another name than its field, a text with a separator, a zero in front of another default. *)
Theorem C109_values_refuted : forall l zero verb key a u kvs v,
  In (l, zero, verb, key, a, u, kvs, v)
    [ (["http GET ""/x?t={tag}"" (operation=getX) {"; "  tag String"; "  expect 200"; "}"], """""", "%s", "t", RText "me", "/x?tag=me", [("tag", "me")], RText "");
      (["http GET ""/x?tag={tag}"" (operation=getX) {"; "  tag String"; "  expect 200"; "}"], """""", "%s", "tag", RText "a&b", "/x?tag=a&b", [("tag", "a"); ("b", "")], RText "a");
      (["http GET ""/x?tag={tag}"" (operation=getX) {"; "  tag Int8 (default=5)"; "  expect 200"; "}"], "0", "%d", "tag", RInt 0, "/x", [], RInt 5) ]%Z ->
  exists m conv, parse_sadl_string demo_ext no_files 0 9 (src l) = Ok m
  /\ create_client m false "S" "s" = Ok (client_text "s" client_packages "SClient" [mkCM "GetX" "GET" "/x" [mkCQ "Tag" zero "tag" verb] None "200" [] []])
  /\ create_server toy_print toy_time m false "S" "s"
       = Ok (server_text server_library "s" server_packages "S" "sAdaptor" [mkHandler "GetX" "GET" "/x" [Value_ "Tag" (FromQuery key) conv] false "200" [] None []])
  /\ address (mkCM "GetX" "GET" "/x" [mkCQ "Tag" zero "tag" verb] None "200" [] []) (fun _ => a) u
  /\ read_address u = Some ("/x", kvs)
  /\ (forall rq, rq_query rq = kvs -> receives toy_instant (m_schema m) rq (input_at l 0) (Value_ "Tag" (FromQuery key) conv) v)
  /\ v <> a.
Proof.
  assert (L1 : literal "tag" "tag") by exact (quote_literal "tag"). assert (L2 : literal "t" "t") by exact (quote_literal "t"). assert (L3 : literal "" "") by exact (quote_literal "").
  intros l zero verb key a u kvs v [E|[E|[E|[]]]]; injection E as <- <- <- <- <- <- <- <-;
    match goal with |- context [src ?l] => set (L := l); exists (parse_of L) end.
  - exists (AsText (Some "string") ""). parsed. split; [vm_compute; reflexivity|]. split; [vm_compute; reflexivity|]. split; [|split; [reflexivity|split; [|discriminate]]].
    + exists ["tag=me"]. split; [|reflexivity]. refine (ag_put _ (mkCQ "Tag" """""" "tag" "%s") _ _ "me" _ _ _); [intros [[_ X]|[X _]]; discriminate|constructor|constructor].
    + intros rq Q. exists "". split; [exists "t"; split; [exact L2|]; right; rewrite Q; cbn; split; [intros [X|[]]; discriminate|reflexivity]|]. constructor; [reflexivity|exact L3].
  - exists (AsText (Some "string") ""). parsed. split; [vm_compute; reflexivity|]. split; [vm_compute; reflexivity|]. split; [|split; [reflexivity|split; [|discriminate]]].
    + exists ["tag=a&b"]. split; [|reflexivity]. refine (ag_put _ (mkCQ "Tag" """""" "tag" "%s") _ _ "a&b" _ _ _); [intros [[_ X]|[X _]]; discriminate|constructor|constructor].
    + intros rq Q. exists "a". split; [exists "tag"; split; [exact L1|]; left; exists [], [("b", "")]; split; [exact Q|intros []]|]. constructor. discriminate.
  - exists (AsInt (Some "int8") "5"). parsed. split; [vm_compute; reflexivity|]. split; [vm_compute; reflexivity|]. split; [|split; [reflexivity|split; [|discriminate]]].
    + exists []. split; [|reflexivity]. apply ag_zero; [right; auto|constructor].
    + intros rq Q. exists "". split; [exists "tag"; split; [exact L1|]; right; rewrite Q; split; [intros []|reflexivity]|].
      assert (ET : ts_type (fd_spec (ps_field (input_at L 0))) = "Int8") by (vm_compute; reflexivity).
      eapply (gv_no_int _ _ _ _ _ _ 5%Z _ 8%Z); [|apply numeral_fmt; vm_compute; reflexivity|rewrite ET; eexists; split; [left; split; [cbn; tauto|reflexivity]|reflexivity]|cbn; auto|apply wraps_self; unfold in_bits; cbn; lia].
      intros j T. destruct (int_text_empty j T).
Qed.
Print Assumptions C109_values_refuted.

