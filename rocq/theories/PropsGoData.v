(** C102: the JSON data that the types of the generated Go file read and write back. *)
From Verif Require Import GoStr Outcome Value Schema Scalars Time Model Misc ParserValidate Scan Parser Generator Golang GoModel
  SpecTime SpecModel SpecMisc SpecPV SpecParser SpecTrace SpecGo ModelFacts PVFacts Demo Lex FileFacts InvFacts InvNames ParsedFacts PropsParser
  TraceFacts PropsTrace GoModelFacts GoText GoNames SpecGoData GoData.

(** What encoding/json does with the file: for all sizes of floats, texts of decimals and times. *)
Definition comes_back (ds : list godecl) (round : Z -> decimal -> decimal) (big : decimal -> decimal) (dec_text : decimal -> string)
  (dec_read : string -> option decimal) (time_read : string -> option timestamp) (time_write : timestamp -> string) (n : string) (j : value) : Prop :=
  (exists v j', reads ds round big dec_read time_read (GNamed n) j v /\ writes ds dec_text time_write (GNamed n) v j')
  /\ forall v j', reads ds round big dec_read time_read (GNamed n) j v -> writes ds dec_text time_write (GNamed n) v j' -> same_data j j'.
Definition never_back (ds : list godecl) (n : string) (j : value) : Prop :=
  forall round big dec_text dec_read time_read time_write v j',
  reads ds round big dec_read time_read (GNamed n) j v -> writes ds dec_text time_write (GNamed n) v j' -> ~ same_data j j'.
Theorem C102_data_partial : forall X sch m, new_model sch = Ok m -> forall runtime service pkg s,
  create_model m runtime service pkg = Ok s -> exists imports ds,
  s = file_text timestamp_type decimal_type pkg imports ds /\ file_shown sch runtime service ds
  /\ (NoDup (flat_map declared ds) -> forall round big dec_text dec_read time_read time_write td j,
      In td (sc_types sch) -> ts_type (td_spec td) <> "Decimal" -> member X sch (td_spec td) j -> vwf j ->
      kept sch runtime round big time_read time_write (td_spec td) j ->
      comes_back ds round big dec_text dec_read time_read time_write (td_name td) j).
Proof.
  intros X sch m Hm rt service pkg s H. destruct (file_spec sch m Hm rt service pkg s H) as (i & ds & E & F & _). exists i, ds.
  split; [exact E|split; [exact F|]]. intros ND round big dt dr tr tw td j I N M W K.
  destruct (data_good X sch m Hm rt service ds F ND round big dt dr tr tw _ _ M W K) as (_ & B & _).
  destruct (B td I eq_refl N) as (A & S & _). split; [exact A|exact S].
Qed.
Print Assumptions C102_data_partial.

Definition data_lines : list string :=
  [ "type Item Struct {"; "  label String (required)"; "  count Int32"; "  tags Array<String>"; "  kind Kind"; "  next Item"; "}"; "type Kind Enum {"; "  red"; "}" ].
Definition data_value : value :=
  VMap [ ("label", VStr ""); ("count", VDec (DFin 5 0)); ("tags", VArr [VStr "a"; VStr "b"]); ("kind", VStr "red"); ("next", VMap [("label", VStr "x")]) ].
Definition a_field (n : string) (req : bool) (ts : typespec) : fielddef := mkField n "" [] req VNil ts.
Definition an_array (n : string) : typespec := mkTS "Array" "" None None None [] [] None None n "" [] "" "" "".
Definition a_struct (fs : list fielddef) : typespec := mkTS "Struct" "" None None None fs [] None None "" "" [] "" "" "".
Definition item_spec : typespec :=
  a_struct [ a_field "label" true (ts_of "String"); a_field "count" false (ts_of "Int32"); a_field "tags" false (an_array "String");
             a_field "kind" false (ts_of "Kind"); a_field "next" false (ts_of "Item") ].
Definition kind_spec : typespec := mkTS "Enum" "" None None None [] [mkElt "red" "" []] None None "" "" [] "" "" "".
Definition data_schema : schema :=
  mkSchema "0" "" "" "" "" [mkTD "Item" "" [] item_spec; mkTD "Kind" "" [] kind_spec] [] [] [] "" [].
Definition data_decls : list godecl :=
  [ GdInterface "Store" []; GdNote "Item";
    GdStruct "Item" [ mkGF "Label" GString "label" false; mkGF "Count" (GInt 32) "count" true; mkGF "Tags" (GSlice GString) "tags" true;
                      mkGF "Kind" (GNamed "Kind") "kind" true; mkGF "Next" (GPtr (GNamed "Item")) "next" true ];
    GdNote "Kind"; GdEnum "Kind" [("red", "red")] ].
Lemma data_defines n ts : defines data_schema n ts -> (n = "Item" /\ ts = item_spec) \/ (n = "Kind" /\ ts = kind_spec) \/ (In n builtin_names /\ ts = ts_of n).
Proof.
  intros (td & [[I ->]|[I E]] & <-); [right; right; auto|]. cbn [In data_schema sc_types] in I. destruct I as [<- |[<- |[]]]; cbn [td_name] in E; subst n; auto.
Qed.
Lemma data_member : member demo_ext data_schema item_spec data_value.
Proof.
  assert (S : forall s, member demo_ext data_schema (ts_of "String") (VStr s)).
  { intros s. eapply me_string; [reflexivity|left; reflexivity|split; exact Logic.I|discriminate|left; reflexivity]. }
  assert (B : forall n, In n builtin_names -> defines data_schema n (ts_of n)) by (intros n I; exists (mkTD n "" [] (ts_of n)); split; [left; auto|reflexivity]).
  assert (I : forall l, closed_object item_spec l -> (forall f x, In f (ts_fields item_spec) -> In (fd_name f, x) l -> member demo_ext data_schema (fd_spec f) x) -> member demo_ext data_schema item_spec (VMap l)).
  { intros l C H. apply me_struct; [reflexivity|exact C|exact H]. }
  assert (N : forall k, In k (map fst [("label", VNil); ("count", VNil); ("tags", VNil); ("kind", VNil); ("next", VNil)]) -> exists f, In f (ts_fields item_spec) /\ fd_name f = k).
  { intros k J. assert (Q : In k (map (fun f : fielddef => fd_name f) (ts_fields item_spec))) by exact J. apply in_map_iff in Q as (f & E & Q). eauto. }
  apply I.
  - split.
    + exact N.
    + intros f J R. cbn in J. repeat (destruct J as [<- |J]; [cbn; auto 10|]). destruct J.
  - intros f x J K. cbn [In ts_fields item_spec a_struct] in J.
    destruct J as [<- |[<- |[<- |[<- |[<- |[]]]]]]; cbn [fd_name fd_spec a_field] in K |- *;
      destruct K as [K|[K|[K|[K|[K|[]]]]]]; try discriminate K; injection K as <-.
    + apply S.
    + apply me_number; [cbn; tauto|split; discriminate|]. intros lo hi E. injection E as <- <-. exists 5%Z. split; [lia|]. split; apply dec_le_refl.
    + eapply me_array; [reflexivity|apply B; cbn; tauto| |split; exact Logic.I]. intros x [<- |[<- |[]]]; apply S.
    + apply (me_ref _ _ _ kind_spec); [split; [cbn; intuition discriminate|]; exists (mkTD "Kind" "" [] kind_spec); split; [right; cbn; auto|reflexivity]|].
      eapply me_enum; [reflexivity|left; reflexivity|]. exists (mkElt "red" "" []). cbn. auto.
    + apply (me_ref _ _ _ item_spec); [split; [cbn; intuition discriminate|]; exists (mkTD "Item" "" [] item_spec); split; [right; cbn; auto|reflexivity]|].
      apply I.
      * split.
        { intros k J. apply N. cbn in J. destruct J as [<- |[]]. now left. }
        { intros f J R. cbn in J. destruct J as [<- |[<- |[<- |[<- |[<- |[]]]]]]; try discriminate R. now left. }
      * intros f x J K. cbn [In ts_fields item_spec a_struct] in J.
        destruct J as [<- |[<- |[<- |[<- |[<- |[]]]]]]; cbn [fd_name fd_spec a_field] in K |- *; destruct K as [K|[]]; try discriminate K. injection K as <-. apply S.
Qed.
Lemma data_kept round big time_read time_write : kept data_schema false round big time_read time_write item_spec data_value.
Proof.
  assert (NU : forall k f, In f (ts_fields item_spec) -> In k ["Union"; "Decimal"] -> ~ has_kind data_schema (fd_spec f) k).
  { intros k f J Ik (ts & [NK D] & T). apply data_defines in D. cbn [In ts_fields item_spec a_struct] in J.
    destruct D as [[E ->]|[[E ->]|[I ->]]]; [| |cbn [ts_type ts_of] in T].
    - cbn in T, Ik. intuition congruence.
    - cbn in T, Ik. intuition congruence.
    - destruct J as [<- |[<- |[<- |[<- |[<- |[]]]]]]; cbn in NK, I; intuition discriminate. }
  assert (LC : forall c, In c ["a"; "b"; "c"; "d"; "e"; "g"; "i"; "k"; "l"; "n"; "o"; "s"; "t"; "u"; "x"]%char -> letter c).
  { intros c I. left. unfold lower_letter. repeat (destruct I as [<- |I]; [cbn; lia|]). destruct I. }
  assert (TG : forall f, In f (ts_fields item_spec) -> tag_ok (fd_name f) /\ starts_with_letter (fd_name f) /\ ~ In (ts_type (fd_spec f)) not_go).
  { assert (Q : forall n, (forall c, has_char c n -> In c ["a"; "b"; "c"; "d"; "e"; "g"; "i"; "k"; "l"; "n"; "o"; "s"; "t"; "u"; "x"]%char) -> n <> "" -> tag_ok n /\ starts_with_letter n).
    { intros n H N. split; [split; [exact N|]; intros c I; left; apply LC; auto|]. destruct n as [|c r]; [contradiction|]. exists c, r. split; [reflexivity|]. apply LC, H. exists "", r. reflexivity. }
    assert (HC : forall c a r, has_char c (String a r) -> c = a \/ has_char c r).
    { intros c a r ([|x y] & b & E); cbn in E; [injection E as -> _; now left|]. injection E as -> ->. right. exists y, b. reflexivity. }
    assert (H0 : forall c, ~ has_char c "") by (intros c ([|x y] & b & E); discriminate E).
    intros f J. cbn [In ts_fields item_spec a_struct] in J.
    destruct J as [<- |[<- |[<- |[<- |[<- |[]]]]]]; cbn [fd_name fd_spec a_field]; rewrite <- and_assoc;
      (split; [apply Q; [|discriminate]; intros c H; repeat (apply HC in H; destruct H as [-> |H]; [cbn; tauto|]); destruct (H0 _ H)|cbn; intuition discriminate]). }
  assert (ST : forall l, (forall f x, In f (ts_fields item_spec) -> fd_required f = false -> In (fd_name f, x) l -> ~ empty_json x \/ has_kind data_schema (fd_spec f) "Struct") ->
    kept_here data_schema false round big time_read time_write item_spec (VMap l)).
  { intros l H. apply kh_struct; [reflexivity| |exact TG| |exact H].
    - repeat constructor; cbn; intuition discriminate.
    - intros f J _. split; apply NU; cbn; auto. }
  assert (KS : forall s, kept data_schema false round big time_read time_write (ts_of "String") (VStr s)).
  { intros s. apply keep_leaf; [cbn; tauto|cbn; intuition discriminate|]. apply kh_text. cbn. auto. }
  assert (NE : ~ empty_json (VDec (DFin 5 0))) by (intros [(k & A & B & C) _]; cbn in *; rewrite Z.mul_0_l in C; assert (0 < 2 ^ (0 - k))%Z by (apply Z.pow_pos_nonneg; lia); lia).
  apply keep_struct; [reflexivity| |].
  - apply ST. intros f x J R K. cbn [In ts_fields item_spec a_struct] in J.
    destruct J as [<- |[<- |[<- |[<- |[<- |[]]]]]]; cbn [fd_name fd_spec a_field] in K |- *; try discriminate R;
      destruct K as [K|[K|[K|[K|[K|[]]]]]]; try discriminate K; injection K as <-.
    + left. exact NE.
    + left. discriminate.
    + left. discriminate.
    + left. discriminate.
  - intros f x J K. cbn [In ts_fields item_spec a_struct] in J.
    destruct J as [<- |[<- |[<- |[<- |[<- |[]]]]]]; cbn [fd_name fd_spec a_field] in K |- *;
      destruct K as [K|[K|[K|[K|[K|[]]]]]]; try discriminate K; injection K as <-.
    + apply KS.
    + apply keep_leaf; [cbn; tauto|cbn; intuition discriminate|]. apply kh_int. cbn. auto.
    + apply keep_array; [reflexivity| |].
      * apply kh_array; [reflexivity|]. split; [intros [E|E]; discriminate|]. split; [cbn; intuition discriminate|]. intros ts D T. apply data_defines in D.
        destruct D as [[E _]|[[E _]|[_ ->]]]; [discriminate|discriminate|discriminate].
      * intros ts x D J. apply data_defines in D. destruct D as [[E _]|[[E _]|[_ ->]]]; [discriminate|discriminate|]. destruct J as [<- |[<- |[]]]; apply KS.
    + apply keep_ref; [cbn; intuition discriminate| |].
      * apply kh_ref; [cbn; intuition discriminate| |discriminate]. apply (NU "Decimal" (a_field "kind" false (ts_of "Kind"))); cbn; auto 10.
      * intros ts D. apply data_defines in D. destruct D as [[E _]|[[_ ->]|[I _]]]; [discriminate| |cbn in I; intuition discriminate].
        apply keep_leaf; [cbn; tauto|cbn; intuition discriminate|]. apply kh_enum; [reflexivity|]. intros e [<- |[]]. intros [].
    + apply keep_ref; [cbn; intuition discriminate| |].
      * apply kh_ref; [cbn; intuition discriminate| |discriminate]. apply (NU "Decimal" (a_field "next" false (ts_of "Item"))); cbn; auto 10.
      * intros ts D. apply data_defines in D. destruct D as [[_ ->]|[[E _]|[I _]]]; [|discriminate|cbn in I; intuition discriminate].
        apply keep_struct; [reflexivity| |].
        { apply ST. intros f x J R K. cbn [In ts_fields item_spec a_struct] in J.
          destruct J as [<- |[<- |[<- |[<- |[<- |[]]]]]]; cbn [fd_name fd_spec a_field] in K |- *; try discriminate R; destruct K as [K|[]]; discriminate K. }
        { intros f x J K. cbn [In ts_fields item_spec a_struct] in J.
          destruct J as [<- |[<- |[<- |[<- |[<- |[]]]]]]; cbn [fd_name fd_spec a_field] in K |- *; destruct K as [K|[]]; try discriminate K. injection K as <-. apply KS. }
Qed.
Example C102_data_case :
  parse_sadl_string demo_ext no_files 0 9 (src data_lines) = Ok (parse_of data_lines) /\ m_schema (parse_of data_lines) = data_schema
  /\ create_model (parse_of data_lines) false "Store" "store" = Ok (file_text timestamp_type decimal_type "store" [] data_decls) /\ NoDup (flat_map declared data_decls)
  /\ In (mkTD "Item" "" [] item_spec) (sc_types data_schema) /\ member demo_ext data_schema item_spec data_value /\ vwf data_value
  /\ forall round big time_read time_write, kept data_schema false round big time_read time_write item_spec data_value.
Proof.
  parsed. parsed. parsed. split; [repeat constructor; cbn; intuition discriminate|]. split; [now left|]. split; [exact data_member|]. split; [|exact data_kept].
  assert (L : forall s, vwf (VStr s)) by (intros s; apply wf_leaf; discriminate).
  apply wf_map; [repeat constructor; cbn; intuition discriminate|]. repeat (apply Forall_cons || apply Forall_nil); cbn [snd].
  - apply L.
  - apply wf_leaf; discriminate.
  - apply wf_arr. repeat (apply Forall_cons || apply Forall_nil); apply L.
  - apply L.
  - apply wf_map; [repeat constructor; intros []|]. apply Forall_cons; [apply L|apply Forall_nil].
Qed.

(** *** Data of the model that does not come back: a Decimal without the runtime library comes back as a string; a zero, an
    empty text or an empty list in an optional field is dropped; an absent union is written as an object without a variant;
    a field that begins with an underscore is lost.  A type that is declared as Decimal, and a symbol with the annotation
    x_enumValue, are not read at all. *)
Definition lost (l : list string) (runtime : bool) (n : string) (j : value) (no_read : bool) : Prop :=
  parse_sadl_string demo_ext no_files 0 9 (src l) = Ok (parse_of l) /\ exists imports ds td,
  create_model (parse_of l) runtime "Store" "s" = Ok (file_text timestamp_type decimal_type "s" imports ds) /\ NoDup (flat_map declared ds)
  /\ In td (sc_types (m_schema (parse_of l))) /\ td_name td = n /\ member demo_ext (m_schema (parse_of l)) (td_spec td) j /\ vwf j
  /\ never_back ds n j
  /\ (no_read = true -> forall round big dec_read time_read v, ~ reads ds round big dec_read time_read (GNamed n) j v).
Ltac decls := repeat match goal with
  | H : In _ (_ :: _) |- _ => destruct H as [H|H]; [try discriminate H; try (injection H; clear H; intros; subst)|]
  | H : In _ [] |- _ => destruct H
  end.
Ltac fields := repeat match goal with
  | H : Forall2 _ (_ :: _) _ |- _ => inversion H; clear H; subst
  | H : Forall2 _ [] _ |- _ => inversion H; clear H; subst
  end.
Lemma one_field_member sch ts f k x :
  ts_type ts = "Struct" -> ts_fields ts = [f] -> fd_name f = k -> member demo_ext sch (fd_spec f) x -> member demo_ext sch ts (VMap [(k, x)]).
Proof.
  intros T F E M. apply me_struct; [exact T| |].
  - split; rewrite F.
    + intros k' [<- |[]]. exists f. split; [now left|exact E].
    + intros f' [<- |[]] _. left. symmetry. exact E.
  - rewrite F. intros f' x' [<- |[]] [J|[]]. injection J as _ <-. exact M.
Qed.
Lemma one_field_wf k x : (forall l, x <> VArr l) -> (forall l, x <> VMap l) -> vwf (VMap [(k, x)]).
Proof. intros A B. apply wf_map; [repeat constructor; intros []|]. apply Forall_cons; [apply wf_leaf; assumption|apply Forall_nil]. Qed.
Ltac written := repeat match goal with
  | H : fields_write _ _ _ (_ :: _) _ _ |- _ => inversion H; clear H; subst
  | H : fields_write _ _ _ [] _ _ |- _ => inversion H; clear H; subst
  end.
Ltac pick := split; [vm_compute; reflexivity|split; [repeat constructor; cbn; intuition discriminate|split; [vm_compute; auto|split; [reflexivity|]]]].
Lemma exported_of c r : upper_letter c -> exported (String c r).
Proof. intros U. exists c, r. auto. Qed.
Theorem C102_decimal_refuted : lost ["type T Struct {"; "  price Decimal (required)"; "}"] false "T" (VMap [("price", VDec (DFin 3 (-1)))]) false.
Proof.
  split; [vm_compute; reflexivity|].
  exists ["encoding/json"; "fmt"; "math/big"], [GdInterface "Store" []; GdNote "T"; GdStruct "T" [mkGF "Price" (GPtr (GNamed "Decimal")) "price" false]; GdDecimal].
  exists (mkTD "T" "" [] (a_struct [a_field "price" true (ts_of "Decimal")])). pick.
  split; [eapply one_field_member; [reflexivity|reflexivity|reflexivity|]; apply me_number; [cbn; tauto|split; discriminate|discriminate]|].
  split; [apply one_field_wf; discriminate|]. split; [|discriminate].
  intros round big dt dr tr tw v j' R W S. inversion S as [| | | |l l' L F]; subst. destruct (F "price" _ (or_introl eq_refl)) as (x & I & Sx).
  inversion W; subst; decls; try discriminate. written; decls; cbn [gf_type gf_json gf_name gf_omit] in *.
  match goal with H : writes _ _ _ (GPtr _) _ _ |- _ => inversion H; subst end; [inversion Sx|].
  match goal with H : writes _ _ _ (GNamed _) _ _ |- _ => inversion H; subst end; decls; inversion Sx.
Qed.
Print Assumptions C102_decimal_refuted.
Theorem C102_zero_refuted : lost ["type T Struct {"; "  count Int32"; "}"] false "T" (VMap [("count", VDec (DFin 0 0))]) false.
Proof.
  split; [vm_compute; reflexivity|].
  exists [], [GdInterface "Store" []; GdNote "T"; GdStruct "T" [mkGF "Count" (GInt 32) "count" true]].
  exists (mkTD "T" "" [] (a_struct [a_field "count" false (ts_of "Int32")])). pick.
  split; [eapply one_field_member; [reflexivity|reflexivity|reflexivity|]; apply me_number; [cbn; tauto|split; discriminate|]|].
  { intros lo hi E. injection E as <- <-. exists 0%Z. split; [lia|]. split; apply dec_le_refl. }
  split; [apply one_field_wf; discriminate|]. split; [|discriminate].
  intros round big dt dr tr tw v j' R W S. inversion S as [| | | |l l' L F]; subst. destruct (F "count" _ (or_introl eq_refl)) as (x & I & Sx).
  inversion W; subst; decls; try discriminate. written; decls; cbn [gf_type gf_json gf_name gf_omit] in *.
  match goal with H : ~ left_out _ _ |- _ => apply H end. right. split; [reflexivity|].
  inversion R; subst; decls; try discriminate. fields.
  match goal with H : _ \/ _ |- _ => destruct H as [(_ & y & J & Rd)|(_ & Z)] end.
  - cbn [gf_json] in J. destruct J as [J|[]]. assert (y = VDec (DFin 0 0)) as -> by congruence. inversion Rd as [| | |bits d z A B| | | | | | | | | | | | | | | | | | |]; subst. cbn.
    destruct A as [(k1 & K1 & _ & A1) (k2 & K2 & _ & A2)]. rewrite Z.mul_0_l in A1, A2.
    assert (0 < 2 ^ (0 - k1))%Z by (apply Z.pow_pos_nonneg; lia). assert (0 < 2 ^ (0 - k2))%Z by (apply Z.pow_pos_nonneg; lia). nia.
  - cbn [gf_type] in Z. inversion Z; subst. reflexivity.
Qed.
Print Assumptions C102_zero_refuted.
Theorem C102_named_decimal_refuted : lost ["type T Decimal"] true "T" (VDec (DFin 3 (-1))) true.
Proof.
  split; [vm_compute; reflexivity|].
  exists ["encoding/json"; "fmt"; "math/big"], [GdInterface "Store" []; GdNote "T"; GdType "T" (GNamed "Decimal") false; GdDecimal].
  exists (mkTD "T" "" [] (ts_of "Decimal")). pick.
  split; [apply me_number; [cbn; tauto|split; discriminate|discriminate]|]. split; [apply wf_leaf; discriminate|].
  assert (N : forall round big dr tr v, ~ reads [GdInterface "Store" []; GdNote "T"; GdType "T" (GNamed "Decimal") false; GdDecimal] round big dr tr (GNamed "T") (VDec (DFin 3 (-1))) v).
  { intros round big dr tr v R. inversion R; subst; decls. contradiction. }
  split; [|intros _; exact N]. intros round big dt dr tr tw v j' R. destruct (N _ _ _ _ _ R).
Qed.
Print Assumptions C102_named_decimal_refuted.
Theorem C102_enum_refuted : lost ["type T Enum {"; "  green (x_enumValue=""GREEN"")"; "}"] true "T" (VStr "green") true.
Proof.
  split; [vm_compute; reflexivity|].
  exists [], [GdInterface "Store" []; GdNote "T"; GdEnum "T" [("green", "GREEN")]].
  exists (mkTD "T" "" [] (mkTS "Enum" "" None None None [] [mkElt "green" "" [("x_enumValue", "GREEN")]] None None "" "" [] "" "" "")). pick.
  split; [eapply me_enum; [reflexivity|left; reflexivity|]; eexists; split; [now left|reflexivity]|]. split; [apply wf_leaf; discriminate|].
  assert (N : forall round big dr tr v, ~ reads [GdInterface "Store" []; GdNote "T"; GdEnum "T" [("green", "GREEN")]] round big dr tr (GNamed "T") (VStr "green") v).
  { intros round big dr tr v R. inversion R as [| | | | | | | | | | | | | |n es s i I [H _]| | | | | | | |]; subst; decls. destruct i as [|[|i]]; cbn in H; [discriminate|discriminate|destruct i; discriminate]. }
  split; [|intros _; exact N]. intros round big dt dr tr tw v j' R. destruct (N _ _ _ _ _ R).
Qed.
Print Assumptions C102_enum_refuted.
Theorem C102_union_refuted : lost ["type T Struct {"; "  u U"; "}"; "type U Union<String,Int32>"] false "T" (VMap []) false.
Proof.
  split; [vm_compute; reflexivity|].
  exists [], [GdInterface "Store" []; GdNote "T"; GdStruct "T" [mkGF "U" (GNamed "U") "u" true]; GdNote "U";
              GdUnion "U" ["String"; "Int32"] [mkGF "String" GString "String" true; mkGF "Int32" (GInt 32) "Int32" true]].
  exists (mkTD "T" "" [] (a_struct [a_field "u" false (ts_of "U")])). pick.
  split; [apply me_struct; [reflexivity|split; [intros k []|intros f [<- |[]]; discriminate]|intros f x _ []]|].
  split; [apply wf_map; constructor|]. split; [|discriminate].
  intros round big dt dr tr tw v j' R W S. inversion S as [| | | |l l' L F]; subst. destruct l' as [|? ?]; [clear L F|discriminate].
  inversion W; subst; decls; try discriminate. written.
  match goal with H : left_out _ _ |- _ => destruct H as [H|[_ H]] end.
  - match goal with H : ~ exported _ |- _ => apply H end. apply exported_of. unfold upper_letter. cbn. lia.
  - inversion R; subst; decls; try discriminate. fields.
    match goal with H : _ \/ _ |- _ => destruct H as [(_ & y & [] & _)|(_ & Z)] end. cbn [gf_type] in Z. inversion Z; subst; decls; assumption.
Qed.
Print Assumptions C102_union_refuted.
Theorem C102_underscore_refuted : lost ["type T Struct {"; "  _x String (required)"; "}"] false "T" (VMap [("_x", VStr "a")]) false.
Proof.
  split; [vm_compute; reflexivity|].
  exists [], [GdInterface "Store" []; GdNote "T"; GdStruct "T" [mkGF "_x" GString "_x" false]].
  exists (mkTD "T" "" [] (a_struct [a_field "_x" true (ts_of "String")])). pick.
  split; [eapply one_field_member; [reflexivity|reflexivity|reflexivity|]; eapply me_string; [reflexivity|left; reflexivity|split; exact Logic.I|discriminate|left; reflexivity]|].
  split; [apply one_field_wf; discriminate|]. split; [|discriminate].
  intros round big dt dr tr tw v j' R W S. inversion S as [| | | |l l' L F]; subst. destruct (F "_x" _ (or_introl eq_refl)) as (x & I & Sx).
  inversion W; subst; decls; try discriminate. written; decls; cbn [gf_type gf_json gf_name gf_omit] in *.
  match goal with H : ~ left_out _ _ |- _ => apply H end. left. intros (c & r & E & U). cbn [gf_name] in E. injection E as <- <-. unfold upper_letter in U. cbn in U. lia.
Qed.
Print Assumptions C102_underscore_refuted.
