(** C98-C101: the generated Go file of types. *)
From Verif Require Import GoStr Outcome Value Schema Scalars Time Model Misc ParserValidate Scan Parser Generator Golang GoModel
  SpecTime SpecModel SpecMisc SpecPV SpecParser SpecTrace SpecGo ModelFacts PVFacts Demo Lex FileFacts InvFacts InvNames ParsedFacts PropsParser
  TraceFacts PropsTrace GoModelFacts GoText GoNames.

Definition go_lines : list string :=
  [ "type Item Struct {"; "  label String (required)"; "  count Int32"; "  when Timestamp"; "  tags Array<String>"; "  kind Kind"; "  next Item"; "}";
    "type Kind Enum {"; "  red"; "  green (x_enumValue=""GREEN"")"; "}";
    "type Oops Struct {"; "  message String"; "}";
    "type Score Int32";
    "type Items Map<String,Item>";
    "type Choice Union<Item,Score>";
    "http GET ""/items/{id}"" (operation=getItem) {"; "  id String"; "  expect 200 {"; "    item Item"; "  }"; "  except 404 Oops"; "}" ].
Definition go_decls : list godecl :=
  [ GdInterface "Store" ["GetItem"];
    GdStruct "GetItemRequest" [mkGF "Id" GString "id" true];
    GdStruct "GetItemResponse" [mkGF "Item" (GPtr (GNamed "Item")) "item" false];
    GdNote "Item";
    GdStruct "Item" [ mkGF "Label" GString "label" false; mkGF "Count" (GInt 32) "count" true; mkGF "When" (GPtr (GNamed "Timestamp")) "when" true;
                      mkGF "Tags" (GSlice GString) "tags" true; mkGF "Kind" (GNamed "Kind") "kind" true; mkGF "Next" (GPtr (GNamed "Item")) "next" true ];
    GdNote "Kind"; GdEnum "Kind" [("red", "red"); ("green", "GREEN")];
    GdNote "Oops"; GdStruct "Oops" [mkGF "Message" GString "message" true]; GdError "Oops";
    GdNote "Score"; GdNumber "Score" (GInt 32);
    GdNote "Items"; GdType "Items" (GMap GString (GPtr (GNamed "Item"))) false;
    GdNote "Choice"; GdUnion "Choice" ["Item"; "Score"] [mkGF "Item" (GPtr (GNamed "Item")) "Item" true; mkGF "Score" (GNamed "Score") "Score" true];
    GdTimestamp ].

(** ** C98 *)
Theorem C98_file_exact : forall sch m, new_model sch = Ok m -> forall runtime service pkg s,
  create_model m runtime service pkg = Ok s -> exists imports ds,
  s = file_text timestamp_type decimal_type pkg imports ds /\ file_shown sch runtime service ds.
Proof.
  intros sch m Hm rt service pkg s H. destruct (file_spec sch m Hm rt service pkg s H) as (i & ds & E & F & _). eauto.
Qed.
Print Assumptions C98_file_exact.
Example C98_file_case :
  parse_sadl_string demo_ext no_files 0 9 (src go_lines) = Ok (parse_of go_lines)
  /\ create_model (parse_of go_lines) false "Store" "store"
     = Ok (file_text timestamp_type decimal_type "store" ["strconv"; "encoding/json"; "fmt"; "strings"; "time"] go_decls).
Proof. parsed. vm_compute. reflexivity. Qed.
(** Every use of a type in a declaration has one Go type. *)
Theorem C98_one_type : forall sch m, new_model sch = Ok m -> forall runtime ts n t t',
  go_use sch runtime ts n t -> go_use sch runtime ts n t' -> t = t'.
Proof. intros sch m Hm rt ts n t t' U V. exact (use_fun sch m Hm rt ts n t U t' V). Qed.
Print Assumptions C98_one_type.

(** ** C99 *)
Theorem C99_crash_exact : forall sch m, new_model sch = Ok m -> forall runtime service pkg,
  (create_model m runtime service pkg = Panic <-> go_fails sch)
  /\ (create_model m runtime service pkg = Panic \/ exists s, create_model m runtime service pkg = Ok s).
Proof.
  intros sch m Hm rt service pkg. destruct (file_total sch m Hm rt service pkg) as [[E F]|[[s E] F]].
  - split; [tauto|auto].
  - split; [split; [congruence|tauto]|eauto].
Qed.
Print Assumptions C99_crash_exact.
Theorem C99_no_type_exact : forall sch m, new_model sch = Ok m -> ~ known sch "" -> forall ts n, ~ no_go_type sch ts n <-> go_typed sch ts n.
Proof. intros sch m Hm N ts n. exact (typed_iff sch m Hm ts n N). Qed.
Print Assumptions C99_no_type_exact.
(** Accepted sources: the file is written if ... *)
Theorem C99_parsed_partial : forall X E, files_have_text E -> forall d v m,
  (exists toks, symbols_have_text toks /\ parse_sadl_string X E d v toks = Ok m) \/ (exists f, parse_sadl_file X E d v f = Ok m) ->
  let sch := m_schema m in
  (forall td, In td (sc_types sch) -> In (ts_type (td_spec td)) go_kinds) ->
  (forall h, In h (sc_http sch) -> h_name h <> "" /\ h_expected h <> None) ->
  (forall n ts, member_of sch n ts -> container (ts_type ts) -> go_typed sch ts (ts_type ts)) ->
  (forall td w, In td (sc_types sch) -> In w (ts_variants (td_spec td)) -> uv_name w <> "" /\ known sch (ts_type (uv_spec w))) ->
  (forall td, In td (sc_types sch) -> container (ts_type (td_spec td)) -> ~ container (ts_items (td_spec td))) ->
  (forall td, In td (sc_types sch) -> ts_type (td_spec td) = "Map" -> plain_part sch (ts_keys (td_spec td))) ->
  forall runtime service pkg, exists s, create_model m runtime service pkg = Ok s.
Proof.
  intros X E Ft d v m P sch Kinds Acts Mem Var Items Keys rt service pkg.
  assert (Hm : new_model sch = Ok m) by (apply (parsed_ok X E Ft d v m P)).
  assert (Na : forall n ts, member_of sch n ts -> n <> "").
  { destruct (parsed_written X E Ft d v m P) as (W1 & W2 & _). fold sch in W1, W2. intros n ts [td f I K J|td w I K J|h p I J|h x p I Ex J].
    - destruct (W1 td I) as (_ & _ & _ & _ & H). destruct (H f J) as [g (Hg & _) _]. exact Hg.
    - exact (proj1 (Var td w I J)).
    - destruct (W2 h I) as (_ & A & _). destruct (proj1 (A p J)) as [g (Hg & _) _]. exact Hg.
    - destruct (W2 h I) as (_ & _ & B & _). destruct (proj1 (proj2 (B x Ex) p J)) as [g (Hg & _) _]. exact Hg. }
  destruct (C29_parsed_names_partial X E Ft d v m P) as (_ & PF & PT & PI & PO). fold sch in PF, PT, PI, PO.
  destruct (file_total sch m Hm rt service pkg) as [[_ F]|[Ok _]]; [exfalso|exact Ok].
  assert (T : forall ts n, go_typed sch ts n -> ~ no_go_type sch ts n).
  { intros ts n G N. destruct G as [Q|[[-> Q]|[-> [QK Q]]]].
    - destruct (plain_go sch true ts n Q) as [t U]. exact (N _ _ U).
    - pose proof Q as [(ti & D) _]. destruct (plain_go sch true ti _ Q) as [t U]. exact (N _ _ (gu_array sch true ts ti t D U)).
    - pose proof Q as [(ti & D) _]. pose proof QK as [(tk & K) _]. destruct (plain_go sch true ti _ Q) as [t U]. destruct (plain_go sch true tk _ QK) as [k V].
      exact (N _ _ (gu_map sch true ts tk k ti t K V D U)). }
  assert (B : forall n ts, member_of sch n ts -> known sch (ts_type ts) -> ~ bad_member sch n ts).
  { intros n ts M K [C|C]; [exact (Na n ts M C)|]. pose proof (Mem n ts M) as G. apply (T ts (ts_type ts)); [|exact C].
    destruct (string_dec (ts_type ts) "Array") as [e|NA]; [apply G; now left|]. destruct (string_dec (ts_type ts) "Map") as [e|NM]; [apply G; now right|].
    left. split; [exact K|]. intros [e|e]; contradiction. }
  destruct F as [h I N|h p I J V|h I N|h x p I Ex J V|td I N|td f I K J V|td w I K J V|td I K N|td I K N].
  - destruct (Acts h I) as [A _]. contradiction.
  - apply (B _ _ (mo_input sch h p I J) (PI h p I J) V).
  - destruct (Acts h I) as [_ A]. contradiction.
  - apply (B _ _ (mo_output sch h x p I Ex J) (PO h x p I Ex J) V).
  - exact (N (Kinds td I)).
  - apply (B _ _ (mo_field sch td f I K J)); [|exact V]. apply (PF td f I K J).
  - apply (B _ _ (mo_variant sch td w I K J)); [|exact V]. exact (proj2 (Var td w I J)).
  - assert (C : container (ts_type (td_spec td))) by (destruct K as [K|[K|[]]]; [left|right]; symmetry; exact K).
    apply (T _ _ (or_introl (conj (match C with or_introl e => proj1 (PT td I) e | or_intror e => proj1 (proj1 (proj2 (PT td I)) e) end) (Items td I C))) N).
  - apply (T _ _ (or_introl (Keys td I K)) N).
Qed.
Print Assumptions C99_parsed_partial.
Definition small_lines : list string :=
  [ "type Item Struct {"; "  tags Array<String>"; "}"; "http GET ""/x"" (operation=getX) {"; "  expect 200 {"; "    item Item"; "  }"; "}" ].
Example C99_parsed_case : let sch := m_schema (parse_of small_lines) in
  parse_sadl_string demo_ext no_files 0 9 (src small_lines) = Ok (parse_of small_lines)
  /\ (forall td, In td (sc_types sch) -> In (ts_type (td_spec td)) go_kinds)
  /\ (forall h, In h (sc_http sch) -> h_name h <> "" /\ h_expected h <> None)
  /\ (forall n ts, member_of sch n ts -> container (ts_type ts) -> go_typed sch ts (ts_type ts))
  /\ (forall td w, In td (sc_types sch) -> In w (ts_variants (td_spec td)) -> uv_name w <> "" /\ known sch (ts_type (uv_spec w)))
  /\ (forall td, In td (sc_types sch) -> ~ container (ts_type (td_spec td)))
  /\ length (sc_types sch) = 1 /\ length (sc_http sch) = 1.
Proof.
  cbv zeta. remember (m_schema (parse_of small_lines)) as sch eqn:S. vm_compute in S. split; [vm_compute; reflexivity|].
  split; [intros td I; rewrite S in I; destruct I as [<- |[]]; now left|].
  split; [intros h I; rewrite S in I; destruct I as [<- |[]]; split; discriminate|].
  split.
  { intros n ts [td f I K J|td w I K J|h p I J|h x p I Ex J]; rewrite S in I; (destruct I as [<- |[]]); try discriminate K.
    - destruct J as [<- |[]]. intros _. right. left. split; [reflexivity|]. split; [|intros [C|C]; discriminate].
      exists (ts_of "String"), (mkTD "String" "" [] (ts_of "String")). split; [left; split; [cbn; tauto|reflexivity]|reflexivity].
    - destruct J.
    - cbn in Ex. injection Ex as <-. destruct J as [<- |[]]. intros [C|C]; discriminate. }
  split; [intros td w I; rewrite S in I; destruct I as [<- |[]]; intros []|].
  split; [intros td I; rewrite S in I; destruct I as [<- |[]]; intros [C|C]; discriminate|].
  rewrite S. split; reflexivity.
Qed.
(** Accepted sources that crash the generator. *)
Definition go_crash_texts : list (list string) :=
  [ ["type Flag Bool"]; ["type At Timestamp"]; ["type Data Bytes"]; ["type Price UnitValue<Decimal,String>"];
    ["type Grid Struct {"; "  rows Array<Array>"; "}"];
    ["type Lost Union<Nowhere>"];
    ["http GET ""/x"" (operation=getX) {"; "}"] ].
Theorem C99_parsed_refuted : forall l, In l go_crash_texts ->
  parse_sadl_string demo_ext no_files 0 9 (src l) = Ok (parse_of l) /\ forall runtime service pkg, create_model (parse_of l) runtime service pkg = Panic.
Proof.
  assert (H : forallb (fun l => match parse_sadl_string demo_ext no_files 0 9 (src l) with Ok _ => true | _ => false end) go_crash_texts = true) by (vm_compute; reflexivity).
  intros l I. split.
  - rewrite forallb_forall in H. specialize (H l I). unfold parse_of. destruct (parse_sadl_string _ _ _ _ _); [reflexivity|discriminate|discriminate|discriminate].
  - intros rt service pkg. cbn in I. repeat (destruct I as [<- |I]; [destruct rt; vm_compute; reflexivity|]). destruct I.
Qed.
Print Assumptions C99_parsed_refuted.

(** ** C100 *)
Definition no_enum_alone (ds : list godecl) : Prop := forall n l, In (GdEnum n l) ds -> In GdTimestamp ds \/ In GdDecimal ds.
Theorem C100_imports_partial : forall sch m, new_model sch = Ok m -> forall runtime service pkg s,
  create_model m runtime service pkg = Ok s -> exists imports ds,
  s = file_text timestamp_type decimal_type pkg imports ds /\ file_shown sch runtime service ds
  /\ NoDup imports
  /\ (forall p, In p imports -> exists d, In d ds /\ needs d p)
  /\ (forall d p, In d ds -> needs d p -> (forall n l, d <> GdEnum n l) -> In p imports)
  /\ (no_enum_alone ds -> forall p, In p imports <-> exists d, In d ds /\ needs d p).
Proof.
  intros sch m Hm rt service pkg s H. destruct (file_spec sch m Hm rt service pkg s H) as (i & ds & E & F & N & P). exists i, ds.
  split; [exact E|]. split; [exact F|]. split; [exact N|].
  assert (A : forall p, In p i -> exists d, In d ds /\ needs d p) by (intros p I; apply P in I as (d & I & B & _); eauto).
  assert (B : forall d p, In d ds -> needs d p -> (forall n l, d <> GdEnum n l) -> In p i) by (intros d p I Nd Ne; apply P; exists d; repeat split; assumption).
  split; [exact A|]. split; [exact B|]. intros En p. split; [apply A|]. intros (d & I & Nd).
  destruct d as [| | | |n l| | | | |]; try (eapply B; [exact I|exact Nd|discriminate]).
  inversion Nd as [d k M| |n' l' p' J| |]; subst; [destruct M|]. destruct (En n l I) as [G|G].
  - apply (B GdTimestamp p G); [|discriminate]. apply nd_time. cbn in J |- *. tauto.
  - apply (B GdDecimal p G); [|discriminate]. apply nd_decimal. cbn in J |- *. tauto.
Qed.
Print Assumptions C100_imports_partial.
Example C100_imports_case : no_enum_alone go_decls /\ In (GdEnum "Kind" [("red", "red"); ("green", "GREEN")]) go_decls.
Proof. split; [intros n l _; left; cbn; tauto|cbn; tauto]. Qed.
(** An enum alone: encoding/json and fmt are used and not imported. *)
Theorem C100_imports_refuted : exists l m ds,
  parse_sadl_string demo_ext no_files 0 9 (src l) = Ok m
  /\ create_model m false "S" "s" = Ok (file_text timestamp_type decimal_type "s" [] ds)
  /\ exists d, In d ds /\ needs d "encoding/json".
Proof.
  exists ["type Kind Enum {"; "  red"; "}"], (parse_of ["type Kind Enum {"; "  red"; "}"]), [GdInterface "S" []; GdNote "Kind"; GdEnum "Kind" [("red", "red")]].
  parsed. split; [vm_compute; reflexivity|]. exists (GdEnum "Kind" [("red", "red")]). split; [cbn; tauto|]. constructor. now left.
Qed.
Print Assumptions C100_imports_refuted.

(** ** C101 *)
Theorem C101_references_partial : forall sch runtime service ds, file_shown sch runtime service ds -> forall n,
  (exists d, In d ds /\ decl_mentions d (GNamed n)) -> ~ In n undeclared_names -> In n (flat_map declared ds).
Proof. intros sch rt service ds F n M N. destruct (file_names sch rt service ds n F M) as [U|D]; [contradiction|exact D]. Qed.
Print Assumptions C101_references_partial.
Example C101_references_case : (exists d, In d go_decls /\ decl_mentions d (GNamed "Item")) /\ ~ In "Item" undeclared_names.
Proof.
  split; [|cbn; intuition discriminate]. exists (GdType "Items" (GMap GString (GPtr (GNamed "Item"))) false).
  split; [cbn; tauto|]. cbn. tauto.
Qed.
Theorem C101_once_partial : forall sch runtime service ds, file_shown sch runtime service ds ->
  (forall td, In td (sc_types sch) -> ts_type (td_spec td) <> "Union") ->
  (forall ms, Forall2 (fun h n => large_first (h_name h) n) (sc_http sch) ms ->
     NoDup (service :: flat_map (fun n => [n +++ "Request"; n +++ "Response"]) ms ++ flat_map taken (sc_types sch) ++ timestamp_names ++ decimal_names)) ->
  NoDup (flat_map declared ds).
Proof. exact declared_once. Qed.
Print Assumptions C101_once_partial.
Example C101_once_case : exists sch m, new_model sch = Ok m /\ (forall td, In td (sc_types sch) -> ts_type (td_spec td) <> "Union")
  /\ (forall ms, Forall2 (fun h n => large_first (h_name h) n) (sc_http sch) ms ->
     NoDup ("Store" :: flat_map (fun n => [n +++ "Request"; n +++ "Response"]) ms ++ flat_map taken (sc_types sch) ++ timestamp_names ++ decimal_names))
  /\ length (sc_types sch) = 2 /\ length (sc_http sch) = 1.
Proof.
  exists (schema_of [tdef "Kind" (ts_enum ["red"]); tdef "Item" (ts_struct [fld "label" true (ts_of "String")])] [demo_action]). eexists.
  split; [vm_compute; reflexivity|]. split; [intros td I; cbn in I; intuition (subst; discriminate)|]. split; [|split; reflexivity].
  intros ms F. cbn in F. inversion F as [|h n hs ns L F']; subst. inversion F'; subst. apply large_first_iff in L. vm_compute in L. subst n.
  cbn. repeat constructor; cbn; intuition discriminate.
Qed.
(** The fields of a struct have different Go names exactly if their names differ in more than the case of the first letter. *)
Theorem C101_fields_exact : forall sch runtime td gs es,
  type_shown sch runtime td (GdNote (td_name td) :: GdStruct (td_name td) gs :: es) ->
  (NoDup (map gf_name gs) <->
   forall a n b n' c, map (fun f : fielddef => fd_name f) (ts_fields (td_spec td)) = a ++ n :: b ++ n' :: c -> ~ same_large n n').
Proof.
  intros sch rt td gs es T. inversion T; subst. apply apart_nodup. eapply fields_large. eassumption.
Qed.
Print Assumptions C101_fields_exact.
Example C101_fields_case : exists td gs es, td_name td = "Pair" /\ length (ts_fields (td_spec td)) = 2
  /\ type_shown (schema_of [] []) false td (GdNote (td_name td) :: GdStruct (td_name td) gs :: es).
Proof.
  exists (tdef "Pair" (ts_struct [fld "left" true (ts_of "String"); fld "right" true (ts_of "Int32")])),
    [mkGF "Left" GString "left" false; mkGF "Right" (GInt 32) "right" false], [].
  split; [reflexivity|]. split; [reflexivity|]. apply ty_struct; [reflexivity| |].
  - constructor; [|constructor; [|constructor]]; (split; [discriminate|]; split; [apply large_first_iff; reflexivity|]);
      (split; [apply gu_basic; cbn; tauto|]; split; reflexivity).
  - right. split; [|reflexivity]. intros (h & e & [] & _).
Qed.
(** Accepted sources whose Go file declares a name twice, has a struct with a field twice, or names a type that is not there. *)
Theorem C101_names_refuted :
  (forall l n, In (l, n) [ (["type A Enum {"; "  ok"; "}"; "type B Enum {"; "  ok"; "}"], "ok");
                           (["type Store String"], "Store");
                           (["type Decimal2 Decimal"; "type NewDecimal String"], "NewDecimal");
                           (["type GetXRequest String"; "http GET ""/x"" (operation=getX) {"; "  expect 200"; "}"], "GetXRequest") ] ->
     exists imports ds, create_model (parse_of l) false "Store" "s" = Ok (file_text timestamp_type decimal_type "s" imports ds)
       /\ parse_sadl_string demo_ext no_files 0 9 (src l) = Ok (parse_of l)
       /\ ~ NoDup (flat_map declared ds))
  /\ (exists imports a ds gs,
       let l := ["type A Struct {"; "  x String"; "  X Int32"; "}"] in
       create_model (parse_of l) false "Store" "s" = Ok (file_text timestamp_type decimal_type "s" imports (a :: GdNote "A" :: GdStruct "A" gs :: ds))
       /\ parse_sadl_string demo_ext no_files 0 9 (src l) = Ok (parse_of l)
       /\ ~ NoDup (map gf_name gs))
  /\ (exists imports ds,
       let l := ["type A Struct {"; "  x UUID"; "}"] in
       create_model (parse_of l) false "Store" "s" = Ok (file_text timestamp_type decimal_type "s" imports ds)
       /\ parse_sadl_string demo_ext no_files 0 9 (src l) = Ok (parse_of l)
       /\ (exists d, In d ds /\ decl_mentions d (GNamed "UUID")) /\ ~ In "UUID" (flat_map declared ds)).
Proof.
  assert (D : forall (A : Type) (x : A) a b c, ~ NoDup (a ++ x :: b ++ x :: c)).
  { intros A x a b c N. apply NoDup_remove_2 in N. apply N. rewrite !in_app_iff. right. right. now left. }
  split; [|split].
  - intros l n I. cbn [In] in I. destruct I as [I|[I|[I|[I|[]]]]]; injection I as <- <-.
    + exists [], [GdInterface "Store" []; GdNote "A"; GdEnum "A" [("ok", "ok")]; GdNote "B"; GdEnum "B" [("ok", "ok")]].
      split; [vm_compute; reflexivity|]. parsed. exact (D _ "ok" ["Store"; "A"] ["namesA"; "B"] ["namesB"]).
    + exists [], [GdInterface "Store" []; GdNote "Store"; GdType "Store" GString false].
      split; [vm_compute; reflexivity|]. parsed. exact (D _ "Store" [] [] []).
    + exists ["encoding/json"; "fmt"; "math/big"], [GdInterface "Store" []; GdNote "Decimal2"; GdType "Decimal2" (GNamed "Decimal") false;
        GdNote "NewDecimal"; GdType "NewDecimal" GString false; GdDecimal].
      split; [vm_compute; reflexivity|]. parsed. exact (D _ "NewDecimal" ["Store"; "Decimal2"] ["DecimalPrecision"; "Decimal"; "DecimalFromString"; "ParseDecimal"] []).
    + exists [], [GdInterface "Store" ["GetX"]; GdStruct "GetXRequest" []; GdStruct "GetXResponse" []; GdNote "GetXRequest"; GdType "GetXRequest" GString false].
      split; [vm_compute; reflexivity|]. parsed. exact (D _ "GetXRequest" ["Store"] ["GetXResponse"] []).
  - exists [], (GdInterface "Store" []), [], [mkGF "X" GString "x" true; mkGF "X" (GInt 32) "X" true]. cbv zeta. split; [vm_compute; reflexivity|]. parsed. exact (D _ "X" [] [] []).
  - exists [], [GdInterface "Store" []; GdNote "A"; GdStruct "A" [mkGF "X" (GNamed "UUID") "x" true]]. cbv zeta. split; [vm_compute; reflexivity|]. parsed. split.
    + eexists. split; [right; right; now left|]. cbn. eexists. split; [now left|]. cbn. auto.
    + cbn. intuition discriminate.
Qed.
Print Assumptions C101_names_refuted.
