(** C116: the names that the generated Java classes mention. *)
From Verif Require Import GoStr Outcome Value Schema Scalars Time Model Misc ParserValidate Scan Parser Generator Golang GoModel Java JavaModel
  SpecTime SpecModel SpecMisc SpecPV SpecParser SpecTrace SpecGo SpecGen SpecJava SpecJavaNames ModelFacts PVFacts Demo Lex PropsParser TraceFacts PropsTrace PropsGo
  JavaFacts JavaText JavaFiles JavaClosed PropsJava.
From Coq Require Import Permutation.

Definition closed_in (dec_text : decimal -> string) (o : jopts) (allowed : jclass -> string -> Prop) : list string -> jout -> Prop :=
  closed_file java_comment GoServer.go_quote dec_text OpenApi.sprint (jo_lombok o) (jo_immutable o) (jo_json o) (jo_header o) (jo_model_package o) (jo_name o)
    timestamp_text util_text exception_text allowed.
(** Full statement: every name that a generated file mentions is a name of java.lang, imported by the file, or the name of a file of its package.
    Missing: models with bounds on numbers ([never_imported]), with unit values ([excused]), with types that are not [types_usable], with members that are not
    [members_usable], and timestamps of a package of their own; C116_names_refuted shows that each of these can go wrong. *)
Theorem C116_names_partial : forall dec_text sch m, new_model sch = Ok m -> types_usable sch -> members_usable sch ->
  forall o fuel ord, jo_instants o = true \/ jo_package o = jo_model_package o -> (forall l, Permutation (ord l) l) -> forall st,
  generate dec_text m o fuel ord start = Ok st -> js_err st = false ->
  forall f, In f (outs st) -> closed_in dec_text o excused (siblings (jo_model_package o) (outs st)) f.
Proof.
  intros dt sch m Hm TU MU o fuel ord IP Hord st H E f I.
  exact (files_closed sch (jo_instants o) (jo_lombok o) (jo_immutable o) (jo_json o) (jo_service_exception o) java_comment GoServer.go_quote dt OpenApi.sprint (jo_header o) (jo_package o)
    (jo_model_package o) (jo_name o) timestamp_text util_text exception_text (outs st) TU MU IP (C114_files_exact dt sch m Hm o fuel ord Hord st H E) f I).
Qed.
Print Assumptions C116_names_partial.

(** ** A model that meets the conditions *)
Definition named_lines : list string :=
  [ "type Item Struct {"; "  label String (required)"; "  count Int32"; "  when Timestamp"; "  tags Array<String>"; "  kind Kind"; "  by Map<String,Item>"; "}";
    "type Kind Enum {"; "  red"; "}"; "type Score Int32"; "type Items Array<Item>"; "type Choice Union<Item,Score>";
    "http GET ""/items/{id}"" (operation=getItem) {"; "  id String"; "  expect 200 {"; "    item Item"; "  }"; "}" ].
Definition named_options : jopts := mkJO "Store" "demo" "demo.model" "" false true true true true.
Example C116_names_case : let m := parse_of named_lines in let sch := m_schema m in
  parse_sadl_string demo_ext no_files 0 9 (src named_lines) = Ok m /\ new_model sch = Ok m /\ types_usable sch /\ members_usable sch /\ jo_instants named_options = true
  /\ match generate toy_number m named_options 30 (fun l => l) start with
     | Ok st => js_err st = false
         /\ siblings (jo_model_package named_options) (outs st) = ["Item"; "Kind"; "Choice"; "Store"; "GetItemRequest"; "GetItemResponse"; "Util"; "ServiceException"]
     | _ => False end.
Proof.
  cbv zeta. split; [vm_compute; reflexivity|]. split; [vm_compute; reflexivity|].
  assert (G : match generate toy_number (parse_of named_lines) named_options 30 (fun l => l) start with
     | Ok st => js_err st = false
         /\ siblings (jo_model_package named_options) (outs st) = ["Item"; "Kind"; "Choice"; "Store"; "GetItemRequest"; "GetItemResponse"; "Util"; "ServiceException"]
     | _ => False end) by (vm_compute; split; reflexivity).
  remember (m_schema (parse_of named_lines)) as sch eqn:S. vm_compute in S.
  assert (B : forall n, In n ["String"; "Int32"; "Timestamp"; "Array"; "Map"] -> usable sch n).
  { clear S. intros n I. assert (J : In n builtin_names /\ ~ In n ["Bytes"; "Struct"; "Enum"; "Union"; "UnitValue"]).
    { destruct I as [<- |[<- |[<- |[<- |[<- |[]]]]]]; (split; [cbn; tauto|]); intros K; repeat (destruct K as [K|K]; [discriminate K|]); exact K. }
    split; [|exact (proj2 J)]. eexists _, _. split; [left; split; [exact (proj1 J)|reflexivity]|reflexivity]. }
  assert (D : forall n, In n ["Item"; "Kind"; "Score"] -> usable sch n).
  { intros n I. split; [|clear S; destruct I as [<- |[<- |[<- |[]]]]; intros K; repeat (destruct K as [K|K]; [discriminate K|]); exact K].
    assert (K : exists td, In td (sc_types sch) /\ td_name td = n).
    { rewrite S. cbn [sc_types]. destruct I as [<- |[<- |[<- |[]]]]; eexists.
      - split; [left; reflexivity|reflexivity].
      - split; [right; left; reflexivity|reflexivity].
      - split; [right; right; left; reflexivity|reflexivity]. }
    destruct K as (td & I1 & I2). exists (td_spec td), td. split; [right; split; [exact I1|exact I2]|reflexivity]. }
  assert (P : forall n, In n ["Item"; "Kind"; "Score"; "String"] -> usable sch n /\ ~ container n).
  { intros n I. split; [destruct I as [<- |[<- |[<- |[<- |[]]]]]; [apply D|apply D|apply D|apply B]; cbn; tauto|]. clear -I. intros [-> | ->]; repeat (destruct I as [I|I]; [discriminate I|]); exact I. }
  split; [|split; [|split; [reflexivity|exact G]]]; clear G.
  - intros td I. rewrite S in I. cbn [sc_types In] in I. destruct I as [<- |[<- |[<- |[<- |[<- |[]]]]]]; cbn [td_name td_spec ts_type ts_items];
      (split; [apply large_first_iff; reflexivity|]); (split; [unfold with_class; cbn; tauto|]); (split; [|discriminate]); split; try discriminate; intros _; apply P; cbn; tauto.
  - intros n ts [td f I K J|td w I K J|h p I J|h x p I Ex J]; rewrite S in I; cbn [sc_types sc_http In] in I.
    + destruct I as [<- |[<- |[<- |[<- |[<- |[]]]]]]; try discriminate K. cbn [td_spec ts_fields In] in J.
      destruct J as [<- |[<- |[<- |[<- |[<- |[<- |[]]]]]]]; cbn [fd_spec ts_type ts_items ts_keys]; (split; [first [apply B; cbn; tauto|apply D; cbn; tauto]|]); split; try discriminate; intros _;
        try split; apply P; cbn; tauto.
    + destruct I as [<- |[<- |[<- |[<- |[<- |[]]]]]]; try discriminate K. cbn [td_spec ts_variants In] in J.
      destruct J as [<- |[<- |[]]]; cbn [uv_spec ts_type]; (split; [apply D; cbn; tauto|]); split; discriminate.
    + destruct I as [<- |[]]. cbn [h_inputs In] in J. destruct J as [<- |[]]. cbn [ps_field fd_spec ts_type]. split; [apply B; cbn; tauto|]. split; discriminate.
    + destruct I as [<- |[]]. cbn [h_expected] in Ex. injection Ex as <-. destruct J as [<- |[]]. cbn [ps_field fd_spec ts_type]. split; [apply D; cbn; tauto|]. split; discriminate.
Qed.

(** ** Names that are not there *)
Lemma suffix_of p s : substring (String.length (p +++ s) - String.length s) (String.length s) (p +++ s) = s.
Proof.
  rewrite append_length. replace (String.length p + String.length s - String.length s) with (String.length p) by lia.
  induction p as [|c p IH]; [|exact IH]. cbn. induction s as [|c s IH]; [reflexivity|]. cbn. now rewrite IH.
Qed.
Lemma not_found imports files x :
  forallb (fun y => if string_dec y x then false else true) (java_lang ++ files) = true ->
  forallb (fun i => let s := "." +++ x in if string_dec (substring (String.length i - String.length s) (String.length s) i) s then false else true) imports = true ->
  ~ found imports files x.
Proof.
  rewrite !forallb_forall. intros A B [H|[H|(p & H)]].
  - specialize (A x (in_or_app _ _ _ (or_introl H))). destruct (string_dec x x); [discriminate|contradiction].
  - specialize (A x (in_or_app _ _ _ (or_intror H))). destruct (string_dec x x); [discriminate|contradiction].
  - specialize (B _ H). cbv beta zeta in B. rewrite suffix_of in B. destruct (string_dec ("." +++ x) ("." +++ x)); [discriminate|contradiction].
Qed.
(** sources, options, imports of the class, the class, and the name that is missing *)
Definition bare (package model_package : string) (immutable : bool) : jopts := mkJO "" package model_package "" false immutable false false false.
Definition item (ms : list jmember) (inner : list jclass) : jclass := JStruct "Item" false ms inner.
Definition must_have (n t : string) : jmember := mkJM n "" false [NotNull] (JT t) (JT t) false.
Definition not_null : string := "javax.validation.constraints.NotNull".
Definition include : string := "com.fasterxml.jackson.annotation.JsonInclude".
Definition nameless_cases : list (list string * jopts * list string * jclass * string) :=
  [ (["type Item Struct {"; "  count Int32 (min=5)"; "}"], bare "demo" "demo" false, [include],
       item [mkJM "count" "" true [Least (DFin 5 0)] (JT "Integer") (JT "Integer") false] [], "Min");
    (["type Money UnitValue<Decimal,String>"], bare "demo" "demo" false, ["com.fasterxml.jackson.annotation.JsonValue"; "java.math.BigDecimal"; not_null],
       JUnit "Money" (JT "BigDecimal") (JT "String") (Some false), "JsonCreator");
    (["type Flag Bool"; "type Item Struct {"; "  flag Flag (required)"; "}"], bare "demo" "demo" false, [not_null], item [must_have "flag" "Flag"] [], "Flag");
    (["type Item Struct {"; "  data Bytes (required)"; "}"], bare "demo" "demo" false, [not_null], item [must_have "data" "Bytes"] [], "Bytes");
    (["type thing Struct {"; "  a String (required)"; "}"; "type Item Struct {"; "  data thing (required)"; "}"], bare "demo" "demo" false, [not_null],
       item [must_have "data" "thing"] [], "thing");
    (["type Item Struct {"; "  when Timestamp (required)"; "}"], bare "demo" "demo.model" false, [not_null], item [must_have "when" "Timestamp"] [], "Timestamp");
    (["type Item Struct {"; "  part Struct {"; "    a Bool (required)"; "  }"; "}"], bare "demo" "demo" true,
       [include; "com.fasterxml.jackson.databind.annotation.JsonDeserialize"; "com.fasterxml.jackson.databind.annotation.JsonPOJOBuilder"; not_null],
       item [mkJM "part" "" true [] (JT "Part") (JT "Struct") false] [JStruct "Part" false [mkJM "a" "" false [] (JT "boolean") (JT "boolean") false] []], "Struct") ].
Theorem C116_names_refuted : forall l o imports k x, In (l, o, imports, k, x) nameless_cases ->
  parse_sadl_string demo_ext no_files 0 9 (src l) = Ok (parse_of l)
  /\ exists st, generate toy_number (parse_of l) o 30 (fun l => l) start = Ok st /\ js_err st = false
     /\ (exists n, In (jo_model_package o, n,
           class_file java_comment GoServer.go_quote toy_number OpenApi.sprint (jo_lombok o) (jo_immutable o) (jo_json o) (jo_header o) (jo_model_package o) imports "" k) (outs st))
     /\ In x (mentioned (jo_lombok o) (jo_immutable o) (jo_json o) true k) /\ ~ found imports (siblings (jo_model_package o) (outs st)) x.
Proof.
  assert (C : forallb (fun c => let '(l, o, imports, k, x) := c in
    match parse_sadl_string demo_ext no_files 0 9 (src l), generate toy_number (parse_of l) o 30 (fun l => l) start with
    | Ok _, Ok st => negb (js_err st)
        && existsb (fun f => (if string_dec (fst (fst f)) (jo_model_package o) then true else false)
             && if string_dec (snd f) (class_file java_comment GoServer.go_quote toy_number OpenApi.sprint (jo_lombok o) (jo_immutable o) (jo_json o) (jo_header o) (jo_model_package o) imports "" k)
                then true else false) (outs st)
        && existsb (fun y => if string_dec x y then true else false) (mentioned (jo_lombok o) (jo_immutable o) (jo_json o) true k)
        && forallb (fun y => if string_dec y x then false else true) (java_lang ++ siblings (jo_model_package o) (outs st))
        && forallb (fun i => let s := "." +++ x in if string_dec (substring (String.length i - String.length s) (String.length s) i) s then false else true) imports
    | _, _ => false end)%bool nameless_cases = true) by (vm_compute; reflexivity).
  rewrite forallb_forall in C. intros l o imports k x I. specialize (C _ I). clear I. cbv beta iota in C. unfold parse_of in *.
  destruct (parse_sadl_string demo_ext no_files 0 9 (src l)) as [m| | |]; [|discriminate C|discriminate C|discriminate C]. split; [reflexivity|].
  destruct (generate toy_number m o 30 (fun l => l) start) as [st| | |]; [|discriminate C|discriminate C|discriminate C].
  apply andb_prop in C as [C C5]. apply andb_prop in C as [C C4]. apply andb_prop in C as [C C3]. apply andb_prop in C as [C1 C2].
  exists st. split; [reflexivity|]. split; [now destruct (js_err st)|]. split; [|split; [|exact (not_found _ _ _ C4 C5)]].
  - apply existsb_exists in C2 as ([[p n] s] & J & E). cbn [fst snd] in E. apply andb_prop in E as [E1 E2]. exists n.
    destruct (string_dec p (jo_model_package o)) as [-> |]; [|discriminate E1].
    destruct (string_dec s (class_file java_comment GoServer.go_quote toy_number OpenApi.sprint (jo_lombok o) (jo_immutable o) (jo_json o) (jo_header o) (jo_model_package o) imports "" k)) as [E| ];
      [|discriminate E2]. rewrite <- E. exact J.
  - apply existsb_exists in C3 as (y & J & E). destruct (string_dec x y) as [-> |]; [exact J|discriminate E].
Qed.
Print Assumptions C116_names_refuted.
