(** C108: what a handler of the generated Go server receives. *)
From Verif Require Import GoStr Outcome Value Schema Scalars Time Model Misc ParserValidate Scan Parser Generator Golang GoModel GoServer GoClient
  SpecTime SpecModel SpecMisc SpecPV SpecParser SpecTrace SpecGo SpecGoServer SpecGoClient SpecGoCall ModelFacts PVFacts Demo Lex FileFacts InvFacts InvNames ParsedFacts PropsParser
  TraceFacts PropsTrace TraceFill GoModelFacts GoText GoServerFacts GoClientFacts GoRoute GoReceive GoCall GoAnswer PropsGoServer PropsGoClient.
From Coq Require Import Lia.

Definition functional (instant : string -> timestamp -> Prop) : Prop := forall s t t', instant s t -> instant s t' -> t = t'.
Definition toy_instant (s : string) (t : timestamp) : Prop := toy_time s = Some t.
Definition toy_stamp (t : timestamp) (s : string) : Prop := s = ts_string t.
Lemma toy_functional : functional toy_instant.
Proof. unfold functional, toy_instant. congruence. Qed.

(** ** C108 *)
(** the values that an input can have *)
Theorem C108_values_partial : forall sch m, new_model sch = Ok m -> forall sprint instant stamp runtime, functional instant ->
  forall h k, handler_shown sprint instant stamp sch runtime h k -> forall n p i, nth_error (h_inputs h) n = Some p -> nth_error (hd_inputs k) n = Some i ->
  forall rq text v, placed rq p text -> stands instant sch (ts_type (fd_spec (ps_field p))) text v ->
  ((exists t, v = RTime t) -> (forall t, fd_default (ps_field p) <> VTime t) /\ (forall s, fd_default (ps_field p) <> VStr s)) ->
  forall v', receives instant sch rq p i v' <-> v' = v.
Proof.
  intros sch m Hm sprint instant stamp rt FI h k (x & _ & _ & _ & _ & _ & F & _) n p i P I rq text v PL ST NS.
  destruct (Forall2_nth _ _ _ F n p P) as (i' & I' & IS). assert (i' = i) as -> by congruence.
  exact (values_received sprint instant stamp sch m Hm rt FI rq p i text v IS PL NS ST).
Qed.
Print Assumptions C108_values_partial.
(** and its default *)
Theorem C108_defaults_partial : forall sch m, new_model sch = Ok m -> forall sprint instant stamp runtime,
  forall h k, handler_shown sprint instant stamp sch runtime h k -> forall n p i, nth_error (h_inputs h) n = Some p -> nth_error (hd_inputs k) n = Some i ->
  forall rq v, placed rq p "" -> declared_default sch (ps_field p) v -> (forall s, fd_default (ps_field p) <> VPStr s) ->
  forall v', receives instant sch rq p i v' <-> v' = v.
Proof.
  intros sch m Hm sprint instant stamp rt h k (x & _ & _ & _ & _ & _ & F & _) n p i P I rq v PL DD NP.
  destruct (Forall2_nth _ _ _ F n p P) as (i' & I' & IS). assert (i' = i) as -> by congruence.
  exact (defaults_received sprint instant stamp sch m Hm rt rq p i v IS PL NP DD).
Qed.
Print Assumptions C108_defaults_partial.
Lemma handler_exists sch m sprint parse_time rt h : new_model sch = Ok m -> ~ server_fails sch -> In h (sc_http sch) ->
  exists k, handler_shown sprint (fun s t => parse_time s = Some t) (fun t s => s = ts_string t) sch rt h k.
Proof.
  intros Hm NF I. destruct (server_total sch m Hm rt sprint parse_time "S" "s") as [[_ F]|(_ & s & E)]; [contradiction|].
  destruct (server_spec sch m Hm rt sprint parse_time "S" "s" s E) as (_ & _ & _ & ks & _ & _ & _ & F & _).
  apply In_nth_error in I as [n N]. destruct (Forall2_nth _ _ _ F n h N) as (k & _ & K). exists k. exact K.
Qed.
Lemma method_exists sch m rt h : new_model sch = Ok m -> ~ client_fails sch -> In h (sc_http sch) -> exists c, method_shown sch rt h c.
Proof.
  intros Hm NF I. destruct (client_total sch m Hm rt "S" "s") as [[_ F]|(_ & s & E)]; [contradiction|].
  destruct (client_spec sch m Hm rt "S" "s" s E) as (_ & _ & cs & _ & _ & F & _).
  apply In_nth_error in I as [n N]. destruct (Forall2_nth _ _ _ F n h N) as (k & _ & K). exists k. exact K.
Qed.
Definition call_lines : list string :=
  [ "type Oops Struct {"; "  message String"; "}"; "type Score Int8"; "type Items Array<String>";
    "http GET ""/items?max={max}&tag={tag}"" (operation=listItems) {"; "  max Score"; "  tag String"; "  expect 200 {"; "    items Items"; "  }"; "  except 404 Oops"; "}" ].
Definition call_schema : schema := m_schema (parse_of call_lines).
Definition call_action : httpdef := http_of call_lines.
Definition input_at (l : list string) (n : nat) : paramspec := nth n (h_inputs (http_of l)) (mkParam "" "" false (fld "" false (ts_of ""))).
Lemma call_model : new_model call_schema = Ok (parse_of call_lines).
Proof. vm_compute. reflexivity. Qed.
Lemma call_server : ~ server_fails call_schema.
Proof.
  intros F. destruct (server_total call_schema _ call_model false toy_print toy_time "S" "s") as [[E _]|(N & _)]; [|contradiction].
  assert (X : match create_server toy_print toy_time (parse_of call_lines) false "S" "s" with Err _ => true | _ => false end = false) by (vm_compute; reflexivity).
  rewrite E in X. discriminate.
Qed.
Lemma call_client : ~ client_fails call_schema.
Proof.
  intros F. destruct (client_total call_schema _ call_model false "S" "s") as [[E _]|(N & _)]; [|contradiction].
  assert (X : match create_client (parse_of call_lines) false "S" "s" with Err _ => true | _ => false end = false) by (vm_compute; reflexivity).
  rewrite E in X. discriminate.
Qed.
Lemma call_in : In call_action (sc_http call_schema).
Proof. vm_compute. left. reflexivity. Qed.
Lemma score_defined : defines call_schema "Score" (td_spec (nth 1 (sc_types call_schema) (tdef "" (ts_of "")))).
Proof. exists (nth 1 (sc_types call_schema) (tdef "" (ts_of ""))). split; [|reflexivity]. right. vm_compute. auto. Qed.
Lemma string_defined sch : defines sch "String" (ts_of "String").
Proof. eexists. split; [left; split; [cbn; tauto|reflexivity]|reflexivity]. Qed.
Lemma numeral_fmt z s : fmt_d z = s -> numeral s z.
Proof. intros <-. apply fmt_numeral. Qed.
Example C108_values_case : exists k i rq text v, handler_shown toy_print toy_instant toy_stamp call_schema false call_action k
  /\ nth_error (h_inputs call_action) 0 = Some (input_at call_lines 0) /\ nth_error (hd_inputs k) 0 = Some i
  /\ placed rq (input_at call_lines 0) text /\ stands toy_instant call_schema (ts_type (fd_spec (ps_field (input_at call_lines 0)))) text v /\ v = RInt (-7).
Proof.
  destruct (handler_exists call_schema _ toy_print toy_time false call_action call_model call_server call_in) as (k & K). exists k.
  assert (F := K). destruct F as (x & _ & _ & _ & _ & _ & F & _). assert (P : nth_error (h_inputs call_action) 0 = Some (input_at call_lines 0)) by (vm_compute; reflexivity).
  destruct (Forall2_nth _ _ _ F 0 _ P) as (i & I & _). exists i, (mkRq [("max", "-7")] (fun _ => "") []), "-7", (RInt (-7)).
  split; [exact K|]. split; [exact P|]. split; [exact I|]. split; [|split; [|reflexivity]].
  - apply pl_query; [vm_compute; discriminate|]. left. exists [], []. split; [vm_compute; reflexivity|intros []].
  - assert (E : ts_type (fd_spec (ps_field (input_at call_lines 0))) = "Score") by (vm_compute; reflexivity). rewrite E.
    eapply (sd_int _ _ _ _ _ 8%Z); [apply score_defined|vm_compute; auto|apply numeral_int; apply numeral_fmt; vm_compute; reflexivity|]. unfold in_bits. cbn. lia.
Qed.
(** Values outside the type and texts that are no values are not refused, but replaced. *)
Theorem C108_range_refuted : exists l m k, parse_sadl_string demo_ext no_files 0 9 (src l) = Ok m
  /\ create_server toy_print toy_time m false "S" "s" = Ok (server_text server_library "s" server_packages "S" "sAdaptor" [k])
  /\ exists i, hd_inputs k = [i] /\ h_inputs (http_of l) = [input_at l 0]
  /\ forall text v, In (text, v) [("200", -56); ("9999999999999999999", 5); ("abc", 5)]%Z ->
       (forall w, ~ stands toy_instant (m_schema m) (ts_type (fd_spec (ps_field (input_at l 0)))) text w)
       /\ forall rq, placed rq (input_at l 0) text -> receives toy_instant (m_schema m) rq (input_at l 0) i (RInt v).
Proof.
  set (l := ["http GET ""/x?n={n}"" (operation=getX) {"; "  n Int8 (default=5)"; "  expect 200"; "}"]).
  exists l, (parse_of l), (mkHandler "GetX" "GET" "/x" [Value_ "N" (FromQuery "n") (AsInt (Some "int8") "5")] false "200" [] None []).
  parsed. split; [vm_compute; reflexivity|]. eexists. split; [reflexivity|]. split; [vm_compute; reflexivity|].
  assert (ET : ts_type (fd_spec (ps_field (input_at l 0))) = "Int8") by (vm_compute; reflexivity). rewrite ET.
  assert (EQ : ps_query (input_at l 0) = "n") by (vm_compute; reflexivity).
  assert (D : defines (m_schema (parse_of l)) "Int8" (ts_of "Int8")) by (eexists; split; [left; split; [cbn; tauto|reflexivity]|reflexivity]).
  assert (Hm : new_model (m_schema (parse_of l)) = Ok (parse_of l)) by (vm_compute; reflexivity).
  assert (U : forall ts, defines (m_schema (parse_of l)) "Int8" ts -> ts = ts_of "Int8") by (intros ts D'; eapply defines_fun; [exact Hm|exact D'|exact D]).
  assert (LN : literal "n" "n") by exact (quote_literal "n").
  assert (W8 : In (ts_type (ts_of "Int8"), 8%Z) widths) by (cbn; auto).
  assert (PS : forall rq text, placed rq (input_at l 0) text -> sourced rq (FromQuery "n") text).
  { intros rq text [Q G|Q|Q]; [|rewrite EQ in Q; discriminate..]. rewrite EQ in G. exists "n". auto. }
  assert (NS : forall text, text <> "" -> (forall z, int_text text z -> ~ in_bits 8 z) -> forall w, ~ stands toy_instant (m_schema (parse_of l)) "Int8" text w).
  { intros text NE N w S. destruct S as [ts _ D' I|ts t _ D' I|ts b z D' I T R]; apply U in D'; subst ts; cbn in I; try (intuition discriminate); try discriminate.
    apply (N z T). destruct I as [I|[I|[I|[I|[]]]]]; [|discriminate I..]. assert (b = 8%Z) as -> by congruence. exact R. }
  assert (NA : forall z, ~ int_text "abc" z).
  { intros z (d & n & X & [[[E|E] _]|[E _]]); try discriminate. subst d. apply TimeFacts.digits_dv in X as [_ X]. vm_compute in X. discriminate. }
  intros text v I. destruct I as [I|[I|[I|[]]]]; injection I as <- <-.
  - assert (N : numeral "200" 200) by (apply numeral_fmt; vm_compute; reflexivity). split.
    + apply NS; [discriminate|]. intros z T. rewrite (int_text_fun _ _ _ T (numeral_int _ _ N)). unfold in_bits. cbn. lia.
    + intros rq P. exists "200". split; [apply PS; exact P|].
      eapply gv_int; [exact (numeral_int _ _ N)|unfold int64; cbn; lia|rewrite ET; exact D|exact W8|]. split; [unfold in_bits; cbn; lia|]. exists 1%Z. reflexivity.
  - assert (N : numeral "9999999999999999999" 9999999999999999999) by (apply numeral_fmt; vm_compute; reflexivity). split.
    + apply NS; [discriminate|]. intros z T. rewrite (int_text_fun _ _ _ T (numeral_int _ _ N)). unfold in_bits. cbn. lia.
    + intros rq P. exists "9999999999999999999". split; [apply PS; exact P|].
      eapply (gv_no_int _ _ _ _ _ _ 5%Z); [|apply numeral_fmt; vm_compute; reflexivity|rewrite ET; exact D|exact W8|apply wraps_self; unfold in_bits; cbn; lia].
      intros j T. rewrite (int_text_fun _ _ _ T (numeral_int _ _ N)). unfold int64. cbn. lia.
  - split.
    + apply NS; [discriminate|]. intros z T. destruct (NA z T).
    + intros rq P. exists "abc". split; [apply PS; exact P|].
      eapply (gv_no_int _ _ _ _ _ _ 5%Z); [intros j T; destruct (NA j T)|apply numeral_fmt; vm_compute; reflexivity|rewrite ET; exact D|exact W8|apply wraps_self; unfold in_bits; cbn; lia].
Qed.
Print Assumptions C108_range_refuted.
(** A text default that is declared in a source is never the one that is received. *)
Theorem C108_default_refuted : forall sch m, new_model sch = Ok m -> forall sprint instant stamp runtime,
  forall h k, handler_shown sprint instant stamp sch runtime h k -> forall n p i, nth_error (h_inputs h) n = Some p -> nth_error (hd_inputs k) n = Some i ->
  forall rq s, placed rq p "" -> fd_default (ps_field p) = VPStr s -> declared_default sch (ps_field p) (RText s) ->
  forall v', receives instant sch rq p i v' <-> v' = RText (sprint (VPStr s)).
Proof.
  intros sch m Hm sprint instant stamp rt h k (x & _ & _ & _ & _ & _ & F & _) n p i P I rq s PL E DD v'.
  destruct (Forall2_nth _ _ _ F n p P) as (i' & I' & IS). assert (i' = i) as -> by congruence. clear I'.
  destruct (value_input sprint instant stamp sch rt p i IS (placed_value _ _ _ PL)) as (f & sc & c & -> & C). inversion DD as [ts s0 D T V| |]; subst s0.
  destruct (converted_text sprint instant stamp sch m Hm rt _ _ _ C D T) as (w & d & s1 & -> & TD & L). rewrite E in TD. assert (s1 = sprint (VPStr s)) as -> by (inversion TD; reflexivity).
  unfold receives. split.
  - intros (t0 & A & G). apply (placed_sourced sprint instant stamp sch rt rq p f sc _ t0 IS) in A. rewrite <- (placed_fun _ _ _ _ PL A) in G.
    inversion G; subst; [congruence|]. f_equal. eapply literal_fun; eassumption.
  - intros ->. exists "". split; [apply (placed_sourced sprint instant stamp sch rt rq p f sc _ "" IS); exact PL|]. apply gv_no_text; [reflexivity|exact L].
Qed.
Print Assumptions C108_default_refuted.
Example C108_defaults_case : exists k i rq v, handler_shown toy_print toy_instant toy_stamp call_schema false call_action k
  /\ nth_error (h_inputs call_action) 0 = Some (input_at call_lines 0) /\ nth_error (hd_inputs k) 0 = Some i
  /\ placed rq (input_at call_lines 0) "" /\ declared_default call_schema (ps_field (input_at call_lines 0)) v /\ (forall s, fd_default (ps_field (input_at call_lines 0)) <> VPStr s)
  /\ v = RInt 0.
Proof.
  destruct (handler_exists call_schema _ toy_print toy_time false call_action call_model call_server call_in) as (k & K). exists k.
  assert (F := K). destruct F as (x & _ & _ & _ & _ & _ & F & _). assert (P : nth_error (h_inputs call_action) 0 = Some (input_at call_lines 0)) by (vm_compute; reflexivity).
  destruct (Forall2_nth _ _ _ F 0 _ P) as (i & I & _). exists i, (mkRq [("tag", "x")] (fun _ => "") []), (RInt 0).
  split; [exact K|]. split; [exact P|]. split; [exact I|]. split; [|split; [|split; [|reflexivity]]].
  - apply pl_query; [vm_compute; discriminate|]. right. split; [|reflexivity]. vm_compute. intros [X|[]]. discriminate.
  - assert (E : ts_type (fd_spec (ps_field (input_at call_lines 0))) = "Score") by (vm_compute; reflexivity).
    eapply (dd_int _ _ _ 8%Z); [rewrite E; apply score_defined|vm_compute; auto|unfold in_bits; cbn; lia|right; split; [vm_compute; reflexivity|reflexivity]].
  - intros s. vm_compute. discriminate.
Qed.
Definition default_lines : list string := ["http GET ""/x?tag={tag}"" (operation=getX) {"; "  tag String (default=""a"")"; "  expect 200"; "}"].
Example C108_default_refuted_case :
  (exists m, parse_sadl_string demo_ext no_files 0 9 (src default_lines) = Ok m)
  /\ exists rq, placed rq (input_at default_lines 0) "" /\ fd_default (ps_field (input_at default_lines 0)) = VPStr "a"
  /\ declared_default (m_schema (parse_of default_lines)) (ps_field (input_at default_lines 0)) (RText "a").
Proof.
  split; [exists (parse_of default_lines); vm_compute; reflexivity|]. exists (mkRq [] (fun _ => "") []).
  split; [apply pl_query; [vm_compute; discriminate|right; split; [intros []|reflexivity]]|]. split; [vm_compute; reflexivity|].
  apply (dd_text _ _ (ts_of "String")); [exact (string_defined _)|cbn; auto|right; left; vm_compute; reflexivity].
Qed.

