(** C114-C115: the generated Java model classes. *)
From Verif Require Import GoStr Outcome Value Schema Scalars Time Model Misc ParserValidate Scan Parser Generator Golang GoModel Java JavaModel
  SpecTime SpecModel SpecMisc SpecPV SpecParser SpecTrace SpecGo SpecGen SpecJava ModelFacts PVFacts Demo Lex FileFacts InvFacts InvNames ParsedFacts PropsParser
  TraceFacts PropsTrace GenFacts GoModelFacts GoText PropsGo JavaFacts JavaText JavaFiles JavaGood JavaParsed.
From Coq Require Import Permutation.
Notation generate := JavaModel.create_model.
Definition done (r : result unit jstate) : Prop := exists st, r = Ok st /\ js_err st = false.
Definition outs (st : jstate) : list (string * string * string) := map (fun f => (jf_package f, jf_name f, jf_text f)) (js_files st).

(** ** C114 *)
Theorem C114_files_exact : forall dec_text sch m, new_model sch = Ok m -> forall o fuel ord, (forall l, Permutation (ord l) l) -> forall st,
  generate dec_text m o fuel ord start = Ok st -> js_err st = false ->
  java_files java_comment GoServer.go_quote dec_text OpenApi.sprint (jo_lombok o) (jo_immutable o) (jo_json o) (jo_instants o) (jo_service_exception o)
    (jo_header o) (jo_package o) (jo_model_package o) (jo_name o) sch timestamp_text util_text exception_text (outs st).
Proof. intros dt sch m Hm o fuel ord Hord st H E. exact (files_text dt sch m Hm o fuel ord Hord st H E). Qed.
Print Assumptions C114_files_exact.
Definition plain_options : jopts := mkJO "Store" "demo" "demo.model" "" false true false true false.
Example C114_files_case : let m := parse_of go_lines in
  parse_sadl_string demo_ext no_files 0 9 (src go_lines) = Ok m
  /\ exists st, generate toy_number m plain_options 30 (fun l => l) start = Ok st /\ js_err st = false
     /\ map fst (outs st) = map (pair "demo.model") ["Item"; "Kind"; "Oops"; "Choice"; "Store"; "GetItemRequest"; "GetItemResponse"] ++ [("demo", "Timestamp"); ("demo.model", "Util")]
     /\ nth 4 (map snd (outs st)) "" =
          line "package demo.model;" +++ line "" +++ line "public interface Store {" +++ line "" +++ line "    public GetItemResponse getItem(GetItemRequest req);" +++ line "" +++ line "}".
Proof.
  parsed. destruct (generate toy_number (parse_of go_lines) plain_options 30 (fun l => l) start) as [st| | |] eqn:G.
  - exists st. split; [reflexivity|].
    assert (H : match generate toy_number (parse_of go_lines) plain_options 30 (fun l => l) start with Ok s => (js_err s, map fst (outs s), nth 4 (map snd (outs s)) "") | _ => (true, [], "") end
      = (false, map (pair "demo.model") ["Item"; "Kind"; "Oops"; "Choice"; "Store"; "GetItemRequest"; "GetItemResponse"] ++ [("demo", "Timestamp"); ("demo.model", "Util")],
         line "package demo.model;" +++ line "" +++ line "public interface Store {" +++ line "" +++ line "    public GetItemResponse getItem(GetItemRequest req);" +++ line "" +++ line "}"))
      by (vm_compute; reflexivity).
    rewrite G in H. assert (A := f_equal (fun x => fst (fst x)) H). assert (B := f_equal (fun x => snd (fst x)) H). assert (C := f_equal snd H).
    cbv beta iota delta [fst snd] in A, B, C. split; [exact A|]. split; [exact B|exact C].
  - exfalso. assert (H : match generate toy_number (parse_of go_lines) plain_options 30 (fun l => l) start with Ok _ => true | _ => false end = true) by (vm_compute; reflexivity). rewrite G in H. discriminate H.
  - exfalso. assert (H : match generate toy_number (parse_of go_lines) plain_options 30 (fun l => l) start with Ok _ => true | _ => false end = true) by (vm_compute; reflexivity). rewrite G in H. discriminate H.
  - exfalso. assert (H : match generate toy_number (parse_of go_lines) plain_options 30 (fun l => l) start with Ok _ => true | _ => false end = true) by (vm_compute; reflexivity). rewrite G in H. discriminate H.
Qed.
(** Every use of a type has one Java type and one list of annotations. *)
Theorem C114_one_type : forall dec_text sch m, new_model sch = Ok m -> forall o ts n r t a t' a',
  java_use sch (jo_instants o) ts n r t a -> java_use sch (jo_instants o) ts n r t' a' ->
  jtype_text t = jtype_text t' /\ map (anno_text GoServer.go_quote dec_text OpenApi.sprint) a = map (anno_text GoServer.go_quote dec_text OpenApi.sprint) a'.
Proof. intros dt sch m Hm o ts n r t a t' a' U V. exact (use_one dt sch m Hm o ts n r t a t' a' U V). Qed.
Print Assumptions C114_one_type.

(** ** C115 *)
Theorem C115_success_exact : forall dec_text sch m, new_model sch = Ok m -> forall o ord, (forall l, Permutation (ord l) l) ->
  let good := java_good sch (jo_instants o) (jo_lombok o) (jo_immutable o) (jo_service_exception o) (jo_name o) in
  (good -> exists f0, forall f, f0 <= f -> done (generate dec_text m o f ord start))
  /\ (forall f, done (generate dec_text m o f ord start) -> good).
Proof. intros dt sch m Hm o ord Hord. split; [exact (model_fine dt sch m Hm o ord)|exact (fine_model dt sch m Hm o ord Hord)]. Qed.
Print Assumptions C115_success_exact.
Theorem C115_parsed_partial : forall X E, files_have_text E -> forall d v m,
  (exists toks, symbols_have_text toks /\ parse_sadl_string X E d v toks = Ok m) \/ (exists f, parse_sadl_file X E d v f = Ok m) ->
  let sch := m_schema m in
  forall rank, descends sch rank -> ~ known sch "Boolean" ->
  (forall n ts, member_of sch n ts -> n <> "package" /\ ~ in_place ts /\ (container (ts_type ts) -> go_typed sch ts (ts_type ts))) ->
  (forall td w, In td (sc_types sch) -> In w (ts_variants (td_spec td)) -> uv_name w <> "") ->
  (forall h, In h (sc_http sch) -> h_name h <> "" /\ h_expected h <> None) ->
  forall dec_text o ord, (forall l, Permutation (ord l) l) -> exists f0, forall f, f0 <= f -> done (generate dec_text m o f ord start).
Proof.
  intros X E Ft d v m P sch rank Hr Nb Mem Var Acts dt o ord Hord.
  assert (Hm : new_model sch = Ok m) by (apply (parsed_ok X E Ft d v m P)).
  destruct (parsed_written X E Ft d v m P) as (W1 & W2 & _). fold sch in W1, W2.
  assert (Na : forall n ts, member_of sch n ts -> n <> "").
  { intros n ts [td f I K J|td w I K J|h p I J|h x p I Ex J].
    - destruct (W1 td I) as (_ & _ & _ & _ & H). destruct (H f J) as [g (Hg & _) _]. exact Hg.
    - exact (Var td w I J).
    - destruct (W2 h I) as (_ & A & _). destruct (proj1 (A p J)) as [g (Hg & _) _]. exact Hg.
    - destruct (W2 h I) as (_ & _ & B & _). destruct (proj1 (proj2 (B x Ex) p J)) as [g (Hg & _) _]. exact Hg. }
  apply (proj1 (C115_success_exact dt sch m Hm o ord Hord)). apply (simple_good sch m Hm (jo_instants o) rank Nb); [|exact Hr| | | | |].
  - intros td I. destruct (W1 td I) as (_ & K & _). intros B. rewrite B in K. cbn in K. repeat (destruct K as [K|K]; [discriminate K|]). exact K.
  - intros td I. apply (W1 td I).
  - intros n ts M. split; [exact (Na n ts M)|]. apply (Mem n ts M).
  - intros td f I K J. apply (Mem _ _ (mo_field sch td f I K J)).
  - intros td I K. destruct (proj1 (parsed_checked X E Ft d v m P) td I) as (_ & _ & _ & U & _). destruct (U K) as [(w & Dw & Kw) Hu]. split; [|exact Hu].
    intros C. assert (B : In (ts_value (td_spec td)) builtin_names) by (destruct C as [-> | ->]; cbn; tauto). rewrite (builtin_def sch m Hm _ w B Dw) in Kw.
    destruct C as [C|C]; rewrite C in Kw; cbn in Kw; repeat (destruct Kw as [Kw|Kw]; [discriminate Kw|]); exact Kw.
  - intros _ h I. destruct (Acts h I) as [A B]. split; [exact A|]. split; [exact B|]. split.
    + intros p J. apply (Mem _ _ (mo_input sch h p I J)).
    + intros x p Ex J. apply (Mem _ _ (mo_output sch h x p I Ex J)).
Qed.
Print Assumptions C115_parsed_partial.
Definition java_lines : list string :=
  [ "type Item Struct {"; "  tags Array<String>"; "  links Links"; "}"; "type Links Map<String,Item>"; "type Coin Enum {"; "  cent"; "}"; "type Price UnitValue<Decimal,Coin>";
    "http GET ""/x"" (operation=getX) {"; "  expect 200 {"; "    item Item"; "  }"; "}" ].
Definition links_last (n : string) : nat := if string_dec n "Links" then 1 else 0.
Example C115_parsed_case : let sch := m_schema (parse_of java_lines) in
  parse_sadl_string demo_ext no_files 0 9 (src java_lines) = Ok (parse_of java_lines)
  /\ descends sch links_last /\ ~ known sch "Boolean"
  /\ (forall n ts, member_of sch n ts -> n <> "package" /\ ~ in_place ts /\ (container (ts_type ts) -> go_typed sch ts (ts_type ts)))
  /\ (forall td w, In td (sc_types sch) -> In w (ts_variants (td_spec td)) -> uv_name w <> "")
  /\ (forall h, In h (sc_http sch) -> h_name h <> "" /\ h_expected h <> None)
  /\ length (sc_types sch) = 4 /\ length (sc_http sch) = 1.
Proof.
  cbv zeta. remember (m_schema (parse_of java_lines)) as sch eqn:S. vm_compute in S. split; [vm_compute; reflexivity|].
  assert (PS : plain_part sch "String").
  { split; [|intros [C|C]; discriminate]. exists (ts_of "String"), (mkTD "String" "" [] (ts_of "String")). split; [left; split; [cbn; tauto|reflexivity]|reflexivity]. }
  assert (PI : plain_part sch "Item").
  { split; [|intros [C|C]; discriminate]. eexists _, _. split; [right; rewrite S; split; [left; reflexivity|reflexivity]|reflexivity]. }
  split.
  { intros td I. rewrite S in I. destruct I as [<- |[<- |[<- |[<- |[]]]]]; (split; intros K; try discriminate K).
    split; [exact PS|]. split; [vm_compute; constructor|]. split; [exact PI|vm_compute; constructor]. }
  split.
  { intros (ts & td & [[B _]|[B C]] & _); [cbn in B; repeat (destruct B as [B|B]; [discriminate B|]); exact B|].
    rewrite S in B. destruct B as [<- |[<- |[<- |[<- |[]]]]]; discriminate C. }
  split.
  { intros n ts [td f I K J|td w I K J|h p I J|h x p I Ex J]; rewrite S in I.
    - destruct I as [<- |[<- |[<- |[<- |[]]]]]; try discriminate K. destruct J as [<- |[<- |[]]].
      + split; [discriminate|]. split; [discriminate|]. intros _. right. left. split; [reflexivity|exact PS].
      + split; [discriminate|]. split; [discriminate|]. intros [C|C]; discriminate.
    - destruct I as [<- |[<- |[<- |[<- |[]]]]]; discriminate K.
    - destruct I as [<- |[]]. destruct J.
    - destruct I as [<- |[]]. cbn in Ex. injection Ex as <-. destruct J as [<- |[]]. split; [discriminate|]. split; [discriminate|]. intros [C|C]; discriminate. }
  split; [intros td w I; rewrite S in I; destruct I as [<- |[<- |[<- |[<- |[]]]]]; intros []|].
  split; [intros h I; rewrite S in I; destruct I as [<- |[]]; split; discriminate|].
  rewrite S. split; reflexivity.
Qed.
Definition java_crash_texts : list (list string) :=
  [ ["type Item Struct {"; "  package String"; "}"];
    ["type Item Struct {"; "  item Struct {"; "    label String"; "  }"; "}"];
    ["type Grid Struct {"; "  rows Array<Array>"; "}"];
    ["type Tree Array<Tree>"; "type Wood Struct {"; "  tree Tree"; "}"];
    ["http GET ""/x"" (operation=getX) {"; "}"] ].

(** a type that is an array of itself has no Java type *)
Lemma tree_has_no_java sch n : opaque n -> known sch n -> (forall ts, defines sch n ts -> ts_type ts = "Array" /\ ts_items ts = n) ->
  forall inst ts k r t a, java_use sch inst ts k r t a -> k = n \/ (k = "Array" /\ exists s, ts = Some s /\ ts_items s = n) -> False.
Proof.
  intros O [q Kn] H inst ts k r t a U.
  assert (NP : forall x p b, In (x, p, b) primitives -> x = n \/ x = "Array" -> False).
  { intros x p b I [-> | ->]; [apply (proj1 O); exact (in_map (fun x => fst (fst x)) _ _ I)|]. cbn in I. repeat (destruct I as [I|I]; [discriminate I|]). exact I. }
  assert (NB : forall x, In x boxes -> x = n \/ x = "Array" -> False).
  { intros x I [-> | ->]; [exact (proj1 (proj2 O) I)|]. cbn in I. repeat (destruct I as [I|I]; [discriminate I|]). exact I. }
  assert (NS : forall x, In x special_names -> x = n -> False) by (intros x I ->; exact (proj2 (proj2 O) I)).
  assert (NO : forall x, opaque x -> x = "Array" -> False) by (intros x (_ & _ & B) ->; apply B; cbn; tauto).
  induction U as [ts k p b I|ts k p b I N|ts t a U IH|ts k r I|ts r|ts r|ts r|r|ts ti t a r D U IH|r|ts tk k a ti t b r D U IH D' U' IH'|ts r|ts r|ts k r O' N
    |ts k td r t a O' D I U IH|ts k td r t a O' D I U IH|ts k td r t a O' D I U IH|ts k td r O' D I|ts k td r O' D I|ts k td r O' D I|ts k td r O' D I J]; intros G.
  - apply (NP _ _ _ I). tauto.
  - apply (NP _ _ _ I). tauto.
  - destruct G as [<- |[G _]]; [|discriminate G]. apply (proj1 O). cbn. tauto.
  - apply (NB _ I). tauto.
  - destruct G as [G|[G _]]; [|discriminate G]. apply (NS _ ltac:(cbn; tauto) G).
  - destruct G as [G|[G _]]; [|discriminate G]. apply (NS "Decimal" ltac:(cbn; tauto) G).
  - destruct G as [G|[G _]]; [|discriminate G]. apply (NS "Timestamp" ltac:(cbn; tauto) G).
  - destruct G as [G|[_ (s & G & _)]]; [|discriminate G]. apply (NS "Array" ltac:(cbn; tauto) G).
  - destruct G as [G|[_ (s & G & T)]]; [apply (NS "Array" ltac:(cbn; tauto) G)|]. injection G as <-. apply IH. left. exact T.
  - destruct G as [G|[G _]]; [|discriminate G]. apply (NS "Map" ltac:(cbn; tauto) G).
  - destruct G as [G|[G _]]; [|discriminate G]. apply (NS "Map" ltac:(cbn; tauto) G).
  - destruct G as [G|[G _]]; [|discriminate G]. apply (NS "UUID" ltac:(cbn; tauto) G).
  - destruct G as [G|[G _]]; [|discriminate G]. apply (NS "Any" ltac:(cbn; tauto) G).
  - destruct G as [-> |[G _]]; [exact (N q Kn)|exact (NO _ O' G)].
  - destruct G as [-> |[G _]]; [|exact (NO _ O' G)]. destruct (H td D) as [E _]. rewrite E in I. cbn in I. repeat (destruct I as [I|I]; [discriminate I|]). exact I.
  - destruct G as [-> |[G _]]; [|exact (NO _ O' G)]. destruct (H td D) as [E _]. congruence.
  - destruct G as [-> |[G _]]; [|exact (NO _ O' G)]. destruct (H td D) as [E T]. apply IH. right. split; [exact E|]. exists td. split; [reflexivity|exact T].
  - destruct G as [-> |[G _]]; [|exact (NO _ O' G)]. destruct (H td D) as [E _]. congruence.
  - destruct G as [-> |[G _]]; [|exact (NO _ O' G)]. destruct (H td D) as [E _]. congruence.
  - destruct G as [-> |[G _]]; [|exact (NO _ O' G)]. destruct (H td D) as [E _]. congruence.
  - destruct G as [-> |[G _]]; [|exact (NO _ O' G)]. destruct (H td D) as [E _]. apply J. rewrite E. cbn. tauto.
Qed.
Lemma array_use sch inst s k r t a : java_use sch inst (Some s) k r t a -> k = "Array" ->
  exists ti t' a', defines sch (ts_items s) ti /\ java_use sch inst (Some ti) (ts_items s) false t' a'.
Proof.
  assert (NO : forall x, opaque x -> x = "Array" -> False) by (intros x (_ & _ & B) ->; apply B; cbn; tauto).
  intros U E. inversion U; subst; try discriminate; try (exfalso; eapply NO; [eassumption|reflexivity]).
  - exfalso. match goal with H : In _ primitives |- _ => cbn in H; repeat (destruct H as [H|H]; [discriminate H|]); exact H end.
  - exfalso. match goal with H : In _ primitives |- _ => cbn in H; repeat (destruct H as [H|H]; [discriminate H|]); exact H end.
  - exfalso. match goal with H : In _ boxes |- _ => cbn in H; repeat (destruct H as [H|H]; [discriminate H|]); exact H end.
  - eauto.
Qed.
Theorem C115_parsed_refuted : forall l, In l java_crash_texts ->
  parse_sadl_string demo_ext no_files 0 9 (src l) = Ok (parse_of l)
  /\ forall dec_text o ord, (forall k, Permutation (ord k) k) -> jo_name o <> "" -> forall f, ~ done (generate dec_text (parse_of l) o f ord start).
Proof.
  assert (H : forallb (fun l => match parse_sadl_string demo_ext no_files 0 9 (src l) with Ok _ => true | _ => false end) java_crash_texts = true) by (vm_compute; reflexivity).
  intros l I. assert (P : parse_sadl_string demo_ext no_files 0 9 (src l) = Ok (parse_of l)).
  { rewrite forallb_forall in H. specialize (H l I). unfold parse_of. destruct (parse_sadl_string _ _ _ _ _); [reflexivity|discriminate|discriminate|discriminate]. }
  clear H. split; [exact P|]. intros dt o ord Hord N f D.
  assert (Hm : new_model (m_schema (parse_of l)) = Ok (parse_of l)).
  { clear -I. cbn in I. repeat (destruct I as [<- |I]; [vm_compute; reflexivity|]). destruct I. }
  pose proof (fine_model dt _ _ Hm o ord Hord f D) as (_ & T & A). clear D P.
  remember (m_schema (parse_of l)) as sch eqn:S. remember (parse_of l) as m eqn:Em. cbn in I.
  assert (F : forall td g, In td (sc_types sch) -> ts_type (td_spec td) = "Struct" -> In g (ts_fields (td_spec td)) -> forall n, large_first (td_name td) n ->
    fd_name g <> "package" /\ slot_good sch (jo_instants o) n (field_slot g)).
  { clear S I. intros td g I K J n L. destruct (T td I) as [_ C]. specialize (C ltac:(left; symmetry; exact K) n L).
    destruct C as [[_ G]|[[E _]|[E|[E _]]]]; [|congruence|congruence|congruence]. destruct G as [fs n th G _]. exact (G g J). }
  destruct I as [<- |[<- |[<- |[<- |[<- |[]]]]]]; try rewrite Em in S; clear Em; vm_compute in S.
  - destruct (sc_types sch) as [|td ts] eqn:E; [rewrite S in E; discriminate E|]. rewrite S in E. cbn [sc_types] in E. injection E as <- <-.
    edestruct (F _ _ (or_introl eq_refl) eq_refl (or_introl eq_refl) "Item") as [C _]; [apply large_first_iff; reflexivity|]. apply C. reflexivity.
  - destruct (sc_types sch) as [|td ts] eqn:E; [rewrite S in E; discriminate E|]. rewrite S in E. cbn [sc_types] in E. injection E as <- <-.
    edestruct (F _ _ (or_introl eq_refl) eq_refl (or_introl eq_refl) "Item") as (_ & C & _); [apply large_first_iff; reflexivity|]. apply C. split; [reflexivity|apply large_first_iff; reflexivity].
  - destruct (sc_types sch) as [|td ts] eqn:E; [rewrite S in E; discriminate E|]. assert (E' := E). rewrite S in E. cbn [sc_types] in E. injection E as <- <-.
    edestruct (F _ _ (or_introl eq_refl) eq_refl (or_introl eq_refl) "Grid") as (_ & _ & (t & a & U) & _); [apply large_first_iff; reflexivity|]. cbn [fd_spec ts_type] in U.
    destruct (array_use _ _ _ _ _ _ _ U eq_refl) as (ti & t1 & a1 & D & U1). cbn [ts_items fd_spec] in D, U1.
    rewrite (builtin_def sch m Hm "Array" ti ltac:(cbn; tauto) D) in U1.
    destruct (array_use _ _ _ _ _ _ _ U1 eq_refl) as (tj & t2 & a2 & D2 & _). destruct D2 as (td & [[B _]|[B C]] & _).
    + cbn in B. repeat (destruct B as [B|B]; [discriminate B|]). exact B.
    + rewrite E' in B. destruct B as [<- |[]]. discriminate C.
  - assert (DT : forall ts, defines sch "Tree" ts -> ts_type ts = "Array" /\ ts_items ts = "Tree").
    { intros ts (td & [[B _]|[B C]] & <-); [cbn in B; repeat (destruct B as [B|B]; [discriminate B|]); destruct B|].
      rewrite S in B. destruct B as [<- |[<- |[]]]; [split; reflexivity|discriminate C]. }
    destruct (sc_types sch) as [|tree [|wood ts]] eqn:E; [rewrite S in E; discriminate E|rewrite S in E; discriminate E|]. assert (E' := E). rewrite S in E. cbn [sc_types] in E. injection E as <- <- <-.
    edestruct (F _ _ (or_intror (or_introl eq_refl)) eq_refl (or_introl eq_refl) "Wood") as (_ & _ & (t & a & U) & _); [apply large_first_iff; reflexivity|]. cbn [fd_spec ts_type] in U.
    refine (tree_has_no_java sch "Tree" _ _ DT _ _ _ _ _ _ U (or_introl eq_refl)).
    + split; [|split]; cbn; intuition discriminate.
    + eexists _, _. split; [right; rewrite E'; split; [left; reflexivity|reflexivity]|reflexivity].
  - destruct (sc_http sch) as [|h hs] eqn:E; [rewrite S in E; discriminate E|]. rewrite S in E. cbn [sc_http] in E. injection E as <- <-.
    destruct (A N _ (or_introl eq_refl)) as (a & c & x & _ & X & _). discriminate X.
Qed.
Print Assumptions C115_parsed_refuted.
