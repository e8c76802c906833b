(** C33, C34, C56-C58: writing a model as SADL text and reading it again.

    A text is scanned by [lex] (Lex.v), the stand-in for the scanner package. *)
From Verif Require Import GoStr Outcome Value Schema Scalars Time Model ModelFacts Misc MiscFacts ParserValidate PVFacts InvFacts Scan ScanFacts Parser
  SpecModel SpecMisc SpecPV SpecParser SpecOptions Unparser SpecUnparse UnparseFacts UnparseComments UnparseHttp UnparseDoc UnparseLex Lex Demo PropsParser.

(** ** Deciding the conditions of the examples *)
Definition plain_b (s : string) : bool :=
  forallb (fun c => (32 <=? nat_of_ascii c) && (nat_of_ascii c <? 127) && negb (Ascii.eqb c """") && negb (Ascii.eqb c "\")) (list_ascii_of_string s).
Lemma plain_by s : plain_b s = true -> plain s.
Proof.
  intros H c Hc. apply has_char_list in Hc. unfold plain_b in H. rewrite forallb_forall in H. specialize (H c Hc).
  repeat (apply andb_true_iff in H; destruct H as [H ?]). apply Nat.leb_le in H.
  match goal with K : (_ <? _) = true |- _ => apply Nat.ltb_lt in K end.
  repeat match goal with K : negb _ = true |- _ => apply negb_true_iff, Ascii.eqb_neq in K end. auto.
Qed.
Definition blank_b (c : ascii) : bool := (nat_of_ascii c =? 32) || ((9 <=? nat_of_ascii c) && (nat_of_ascii c <=? 13)).
Definition a_word_b (s : string) : bool := negb (s =?s "") && forallb (fun c => negb (blank_b c)) (list_ascii_of_string s).
Lemma a_word_by s : a_word_b s = true -> a_word s.
Proof.
  intros H. apply andb_true_iff in H. destruct H as [A B]. split.
  - intros ->. discriminate.
  - intros c Hc K. apply has_char_list in Hc. rewrite forallb_forall in B. specialize (B c Hc). apply negb_true_iff in B. unfold blank_b in B.
    apply orb_false_iff in B. destruct B as [B1 B2]. apply Nat.eqb_neq in B1. destruct K as [K|K]; [congruence|].
    apply andb_false_iff in B2. destruct B2 as [B2|B2]; apply Nat.leb_gt in B2; lia.
Qed.
Lemma spaced_by c : c = "" \/ forallb a_word_b (split " " c) = true -> spaced c.
Proof.
  intros [-> |H]; [exists []; split; [constructor|reflexivity]|]. exists (split " " c). split; [|symmetry; apply join_split].
  apply Forall_forall. intros w Hw. apply a_word_by. rewrite forallb_forall in H. apply H, Hw.
Qed.
Lemma dotted_by s : forallb word_b (split "." s) = true -> dotted s.
Proof. intros H. apply Forall_forall. intros w Hw. apply word_id. rewrite forallb_forall in H. apply H, Hw. Qed.
Lemma one_line_by s : smem "010" s = false -> one_line_text s. Proof. apply smem_one_line. Qed.
Lemma trimmed_by s : trim_space s = s -> trimmed s. Proof. intros <-. apply trim_trimmed. Qed.

Lemma Forall2_impl {A B} (P Q : A -> B -> Prop) l l' : (forall a b, P a b -> Q a b) -> Forall2 P l l' -> Forall2 Q l l'.
Proof. intros H. induction 1; constructor; auto. Qed.

(** ** A document *)
Definition shop_text (d : decimal) : string :=
  match d with DFin 100 0 => "100" | DFin 5 0 => "5" | DFin 3 (-1) => "1.5" | _ => "?" end%Z.
Lemma shop_numbers : forall d, x_decimal demo_ext (shop_text d) = Some d -> number_text (shop_text d).
Proof.
  assert (N : forall c r, SpecMisc.digit c -> (forall x, has_char x r -> SpecMisc.digit x \/ x = "."%char) -> number_text (String c r)).
  { intros c r D H. exists c, r. split; [reflexivity|split; [auto|]]. intros x Hx. apply has_char_cons in Hx. destruct Hx as [-> |Hx]; [auto|].
    destruct (H x Hx); auto. }
  assert (S : forall s, s = "100" \/ s = "5" \/ s = "1.5" -> number_text s).
  { assert (D : forall c, is_digit c = true -> SpecMisc.digit c) by (intros c Hc; apply ch_in_iff in Hc; exact Hc).
    intros s [-> |[-> | ->]]; (apply N; [apply D; reflexivity|]); intros x Hx; apply has_char_list in Hx; simpl in Hx;
      repeat (destruct Hx as [<- |Hx]; [first [left; apply D; reflexivity|right; reflexivity]|]); destruct Hx. }
  intros d H. apply S. unfold demo_ext, x_decimal in H. destruct (shop_text d =?s "100") eqn:E1; [apply seqb_eq in E1; auto|].
  destruct (shop_text d =?s "5") eqn:E2; [apply seqb_eq in E2; auto|].
  destruct (shop_text d =?s "1.5") eqn:E3; [apply seqb_eq in E3; auto|]. discriminate.
Qed.
Definition ts_union (l : list variantdef) : typespec := mkTS "Union" "" None None None [] [] None None "" "" l "" "" "".
Definition shop_types : list typedef :=
  [ mkTD "Status" "the state of an order" [] (mkTS "Enum" "" None None None []
      [mkElt "open" "not paid yet" []; mkElt "paid" "" [("x_code", "2")]; mkElt "lost" "" []] None None "" "" [] "" "" "");
    mkTD "Code" "" [] (mkTS "String" "[A-Z]+" None (Some 2%Z) (Some 8%Z) [] [] None None "" "" [] "" "" "");
    mkTD "Size" "" [] (ts_str "" (Some ["s"; "m"; "l"; "xl"; "xxl"; "xxxl"]));
    mkTD "Sizes" "" [] (ts_array "Size" None None);
    mkTD "Price" "" [] (ts_num "Decimal" (Some (DFin 5 0)) (Some (DFin 100 0)));
    mkTD "Item" "something to buy" [] (ts_struct
      [ mkField "code" "the key" [] true VNil (ts_of "Code");
        mkField "price" "" [("x_unit", "EUR")] true VNil (ts_num "Decimal" (Some (DFin 3 (-1))) None);
        mkField "tags" "" [] false VNil (ts_array "String" None (Some 3%Z));
        mkField "stock" "where and how many" [] false VNil (ts_map "Code" "Int32");
        mkField "box" "" [] false VNil (ts_struct [mkField "width" "in mm" [] true VNil (ts_of "Int32")]) ]);
    mkTD "Find" "" [] (ts_union [mkVariant "item" "" [] (ts_of "Item"); mkVariant "code" "" [] (ts_of "Code")]);
    mkTD "Oops" "" [] (ts_struct [mkField "message" "" [] false VNil (ts_of "String")]) ].
Definition shop_action : httpdef :=
  mkHttp "getItems" "items" "look up an item" [("x_auth", "none")] "GET" "/items/{code}?max={limit}"
    [ mkParam "" "" true (mkField "code" "" [] false VNil (ts_of "Code"));
      mkParam "" "max" false (mkField "limit" "how many" [] false (VDec (DFin 5 0)) (ts_of "Int32"));
      mkParam "X-Key" "" false (mkField "key" "" [] true VNil (ts_of "String")) ]
    (Some (mkExp [ mkParam "" "" false (mkField "body" "" [] true VNil (ts_of "Item"));
                   mkParam "ETag" "" false (mkField "etag" "" [] false VNil (ts_of "String")) ] 200 "found" []))
    [mkExc "Oops" 404 "not found" []].
Definition shop_op : opdef :=
  mkOp "buy" "" [("x_slow", "yes")] [fld "code" true (ts_of "Code"); fld "count" false (ts_of "Int32")]
    [mkOut "item" "" [] (ts_of "Item")] ["Oops"].
Definition shop : schema :=
  mkSchema "0" "shop" "a.demo" "1" "orders and items" shop_types
    [mkEx "Item.code" "first" (VPStr "[A-Z]+") "a key" []; mkEx "Sizes" "all" (VArr [VPStr "s"; VPStr "m"]) "" [];
     mkEx "Oops.message" "hm" (VPStr "it's ""m""") "" []]
    [shop_op] [shop_action] "/api" [("x_owner", "me")].
Ltac fa := repeat (apply Forall_cons; [|]); [..|apply Forall_nil].
Ltac idt := first [apply word_id; reflexivity | apply plain_by; reflexivity | apply spaced_by; first [left; reflexivity|right; reflexivity]
  | apply dotted_by; reflexivity | apply one_line_by; reflexivity | apply trimmed_by; reflexivity].
Lemma no_annos : annos_ok [].
Proof. split; [constructor|]. intros k v []. Qed.
Lemma one_anno k v : word_b k = true -> has_prefix "x_" (to_lower k) = true -> plain_b v = true -> annos_ok [(k, v)].
Proof.
  intros A B D. split; [repeat constructor; intros []|]. intros k' v' [E|[]]. injection E as <- <-.
  split; [apply word_id, A|split; [exact B|apply plain_by, D]].
Qed.
Ltac ann := first [apply no_annos | apply one_anno; reflexivity].
Lemma fits_none : fits64 None. Proof. intros z H. discriminate. Qed.
Lemma fits_some z : (- 2 ^ 63 <=? z)%Z && (z <? 2 ^ 63)%Z = true -> fits64 (Some z).
Proof. intros H y E. injection E as <-. apply andb_true_iff in H. destruct H as [A B]. apply Z.leb_le in A. apply Z.ltb_lt in B. auto. Qed.
Ltac fit := first [apply fits_none | apply fits_some; reflexivity].
Lemma shop_other t : word_b t = true -> str_mem t special_kinds = false -> writable demo_ext shop_text (ts_of t).
Proof.
  intros A B. apply wr_other; [apply word_id, A|]. cbn [ts_type ts_of]. intros H. apply str_mem_In in H. congruence.
Qed.
Lemma shop_reads o : match o with Some d => x_decimal demo_ext (shop_text d) = Some d | None => True end -> reads_back demo_ext shop_text o.
Proof. intros H d ->. exact H. Qed.
Lemma shop_int : writable demo_ext shop_text (ts_of "Int32").
Proof. apply wr_number; [simpl; tauto|apply shop_reads; exact I|apply shop_reads; exact I]. Qed.
Lemma shop_string : writable demo_ext shop_text (ts_of "String").
Proof. apply wr_string; [reflexivity|apply plain_by; reflexivity|fit|fit|]. intros l H. discriminate. Qed.
Lemma shop_types_writable : Forall (writable_type demo_ext shop_text) shop_types.
Proof.
  unfold shop_types. fa; (split; [idt|split; [apply str_mem_In; reflexivity|split; [|try (intros E; discriminate)]]]).
  - apply wr_enum; [reflexivity|]. cbn [td_spec ts_elements]. fa; (split; [idt|split; [ann|idt]]).
  - apply wr_string; [reflexivity|idt|fit|fit|]. intros l H. discriminate.
  - apply wr_string; [reflexivity|idt|fit|fit|]. intros l H. injection H as <-. fa; idt.
  - apply wr_array; [reflexivity|idt|fit|fit].
  - apply wr_number; [simpl; tauto|apply shop_reads; reflexivity|apply shop_reads; reflexivity].
  - apply wr_struct; [reflexivity|]. cbn [td_spec ts_fields ts_struct]. fa; (split; [idt|split; [ann|split; [idt|]]]).
    + apply shop_other; reflexivity.
    + apply wr_number; [simpl; tauto|apply shop_reads; reflexivity|apply shop_reads; exact I].
    + apply wr_array; [reflexivity|idt|fit|fit].
    + apply wr_map; [reflexivity|idt|idt|fit|fit].
    + apply wr_struct; [reflexivity|]. cbn [fd_spec ts_fields ts_struct]. fa. split; [idt|split; [ann|split; [idt|apply shop_int]]].
  - apply wr_union; [reflexivity|]. cbn [td_spec ts_variants ts_union]. fa; (split; [idt|split; [ann|split; [idt|]]]); apply shop_other; reflexivity.
  - apply wr_struct; [reflexivity|]. cbn [td_spec ts_fields ts_struct]. fa. split; [idt|split; [ann|split; [idt|apply shop_string]]].
Qed.
Lemma shop_param ts : writable demo_ext shop_text ts -> braced (ts_type ts) = false -> kept ts = ts -> unlimited ts -> param_type demo_ext shop_text ts.
Proof. unfold param_type. auto. Qed.
Lemma shop_action_writable : writable_http demo_ext shop_text shop_action.
Proof.
  assert (T : forall t, In t ["Code"; "Int32"; "String"; "Item"] -> param_type demo_ext shop_text (ts_of t)).
  { intros t H. assert (writable demo_ext shop_text (ts_of t)) as Wt.
    { simpl in H. destruct H as [<- |[<- |[<- |[<- |[]]]]]; [apply shop_other; reflexivity|apply shop_int|apply shop_string|apply shop_other; reflexivity]. }
    apply shop_param; [exact Wt| | |repeat split]; simpl in H; destruct H as [<- |[<- |[<- |[<- |[]]]]]; reflexivity. }
  assert (Src : forall h f, recorded_source (h_path shop_action) (source_param (parameter_source (h_path shop_action) (fd_name f) h) f))
    by (intros; apply source_param_ok).
  split; [simpl; tauto|]. split; [idt|]. split; [ann|]. split.
  { right; left. split.
    - left. exists [""], ["{code}?max={limit}"]. split; [reflexivity|]. split.
      + intros H. apply has_char_list in H. simpl in H. repeat (destruct H as [H|H]; [discriminate|]). destruct H.
      + fa. exists "", "code}?max={limit}". reflexivity.
    - exists "i"%char, "tems". split; [reflexivity|]. split; [vm_compute; lia|reflexivity]. }
  split.
  { cbn [h_inputs shop_action]. fa; (split; [idt|split; [simpl; intuition discriminate|split; [reflexivity|split; [idt|split; [|split; [apply T; simpl; tauto|split; [idt|split]]]]]]]).
    - apply wv_nil.
    - exact (Src "" (mkField "code" "" [] false VNil (ts_of "Code"))).
    - simpl. split; [discriminate|intros H; exfalso; apply H; reflexivity].
    - apply wv_dec. reflexivity.
    - exact (Src "" (mkField "limit" "how many" [] false (VDec (DFin 5 0)) (ts_of "Int32"))).
    - simpl. split; [discriminate|intros H; exfalso; apply H; reflexivity].
    - apply wv_nil.
    - exact (Src "X-Key" (mkField "key" "" [] true VNil (ts_of "String"))).
    - simpl. split; [discriminate|reflexivity]. }
  split.
  { eexists. split; [reflexivity|]. split; [unfold int32; simpl; lia|]. split; [reflexivity|]. split; [idt|]. cbn [xp_outputs].
    fa; (split; [idt|split; [simpl; intuition discriminate|split; [reflexivity|split; [idt|split; [apply wv_nil|split; [apply T; simpl; tauto|split; [idt|split]]]]]]]).
    - exact (Src "" (mkField "body" "" [] true VNil (ts_of "Item"))).
    - simpl. split; [intros _; split; [discriminate|split; [discriminate|reflexivity]]|reflexivity].
    - exact (Src "ETag" (mkField "etag" "" [] false VNil (ts_of "String"))).
    - simpl. split; [discriminate|intros (_ & _ & H); discriminate]. }
  split; [repeat constructor; intros []|]. cbn [h_exceptions shop_action]. fa. split; [idt|split; [unfold int32; simpl; lia|split; [reflexivity|idt]]].
Qed.
Lemma shop_writable : writable_schema demo_ext shop_text shop.
Proof.
  split; [idt|]. split; [right; idt|]. split; [right; split; [idt|reflexivity]|]. split; [idt|]. split.
  { split; [repeat constructor; intros []|]. intros k v [E|[]]. injection E as <- <-. split; [idt|split; [reflexivity|idt]]. }
  split; [apply shop_types_writable|]. split.
  { cbn [sc_operations shop]. fa. split; [idt|split; [ann|split; [|split; [|split]]]].
    - cbn [op_inputs shop_op]. fa; (split; [idt|eexists; split; [|reflexivity]]; idt).
    - cbn [op_outputs shop_op]. fa; (split; [idt|eexists; split; [|reflexivity]]; idt).
    - cbn [op_exceptions shop_op]. fa; idt.
    - intros _. split; [discriminate|]. intros l i E. apply (f_equal (@rev _)) in E. rewrite rev_app_distr in E. simpl in E. injection E as <- _. reflexivity. }
  split; [cbn [sc_http shop]; fa; apply shop_action_writable|].
  cbn [sc_examples shop]. fa; (split; [idt|split; [idt|split; [|reflexivity]]]).
  - apply (wv_text _ _ _ "[A-Z]+"). right. reflexivity.
  - apply wv_arr. fa; [apply (wv_text _ _ _ "s")|apply (wv_text _ _ _ "m")]; right; reflexivity.
  - apply (wv_text _ _ _ "it's ""m"""). right. reflexivity.
Qed.
Lemma short_by n c : trim_space c = c -> String.length c <=? n = true -> short_comment n c.
Proof. intros A B. split; [apply trimmed_by, A|apply Nat.leb_le, B]. Qed.
Lemma tidy_flat ts : ts_elements ts = [] -> ts_fields ts = [] -> ts_variants ts = [] -> tidy ts.
Proof. intros A B D. constructor; [rewrite A|rewrite B|rewrite D]; constructor. Qed.
Ltac no_empty := (intros (E1 & E2); first [discriminate E1 | discriminate E2 | reflexivity]).
Lemma shop_exact : exact_schema shop.
Proof.
  split; [idt|]. split.
  { cbn [sc_types shop shop_types]. unfold shop_types. fa; (split; [reflexivity|split; [|idt]]); try (apply tidy_flat; reflexivity).
    - constructor; cbn [td_spec ts_elements ts_fields ts_variants]; fa; idt.
    - constructor; cbn [td_spec ts_elements ts_fields ts_variants ts_struct]; fa; (split; [apply short_by; reflexivity|split; [no_empty|try (apply tidy_flat; reflexivity)]]).
      constructor; cbn [fd_spec ts_elements ts_fields ts_variants ts_struct]; fa; (split; [apply short_by; reflexivity|split; [no_empty|try (apply tidy_flat; reflexivity)]]).
    - constructor; cbn [td_spec ts_elements ts_fields ts_variants ts_union]; fa; (split; [apply short_by; reflexivity|split; [no_empty|try (apply tidy_flat; reflexivity)]]).
    - constructor; cbn [td_spec ts_elements ts_fields ts_variants ts_struct]; fa; (split; [apply short_by; reflexivity|split; [no_empty|try (apply tidy_flat; reflexivity)]]). }
  split; [cbn [sc_operations shop]; fa; idt|]. split.
  { cbn [sc_http shop]. fa. split; [idt|split].
    - cbn [h_inputs shop_action]. fa; constructor.
    - intros x H. injection H as <-. cbn [xp_outputs]. fa; constructor. }
  cbn [sc_examples shop]. fa; (split; [idt|]); repeat constructor.
Qed.
Lemma shop_free : collision_free shop.
Proof.
  split; [|split].
  - simpl. repeat constructor; simpl; intuition discriminate.
  - intros td H B. apply str_mem_In in B. cbn [sc_types shop] in H. unfold shop_types in H. simpl in H.
    repeat (destruct H as [<- |H]; [discriminate B|]). destruct H.
  - simpl. repeat constructor. intros [].
Qed.
(** the printed numbers are decimal numerals; the language version and the namespace are those the reader puts in *)
Definition plain_numbers (X : ext) (dec_text : decimal -> string) : Prop :=
  forall d, x_decimal X (dec_text d) = Some d -> number_text (dec_text d).
Lemma back X dec_text E d m : plain_numbers X dec_text -> writable_schema X dec_text (m_schema m) -> collision_free (m_schema m) ->
  exists m', read_string X E d (lex (decompile dec_text m)) = Ok m' /\ same_schema (e_namespace E) (e_version E) (m_schema m) (m_schema m').
Proof. intros N H F. unfold decompile. rewrite (schema_lex X dec_text N _ H). apply decompiled_reads; assumption. Qed.
Example shop_all : plain_numbers demo_ext shop_text /\ writable_schema demo_ext shop_text shop /\ exact_schema shop /\ collision_free shop
  /\ sc_sadl shop = e_version no_files.
Proof. split; [exact shop_numbers|split; [exact shop_writable|split; [exact shop_exact|split; [exact shop_free|reflexivity]]]]. Qed.

(** ** C33 *)
(** The text of a model whose types the notation can express is read, and gives the same types
    in the same order: all of them equal, to the last comment. *)
Theorem C33_types_round_trip : forall X dec_text E d m,
  plain_numbers X dec_text -> writable_schema X dec_text (m_schema m) -> collision_free (m_schema m) ->
  Forall exact_type (sc_types (m_schema m)) ->
  exists m', read_string X E d (lex (decompile dec_text m)) = Ok m' /\ sc_types (m_schema m') = sc_types (m_schema m).
Proof.
  intros X dec_text E d m N H F T. destruct (back X dec_text E d m N H F) as (m' & R & S). exists m'. split; [exact R|].
  destruct S as (_ & _ & _ & _ & _ & _ & _ & S & _). apply exact_types; assumption.
Qed.
Print Assumptions C33_types_round_trip.
Example C33_types_round_trip_case : plain_numbers demo_ext shop_text /\ writable_schema demo_ext shop_text shop /\ collision_free shop
  /\ Forall exact_type (sc_types shop) /\ length (sc_types shop) = 8.
Proof. destruct shop_all as (A & B & D & F & _). split; [exact A|split; [exact B|split; [exact F|split; [apply D|reflexivity]]]]. Qed.
(** Types that can be written but not in full come back as what the text keeps of them ([kept_type]). *)
Theorem C33_types_kept : forall X dec_text E d m,
  plain_numbers X dec_text -> writable_schema X dec_text (m_schema m) -> collision_free (m_schema m) ->
  exists m', read_string X E d (lex (decompile dec_text m)) = Ok m'
    /\ Forall2 (fun td td' => bare_type td' = bare_type (kept_type td) /\ (tidy (td_spec td) -> td_spec td' = td_spec (kept_type td)))
         (sc_types (m_schema m)) (sc_types (m_schema m')).
Proof.
  intros X dec_text E d m N H F. destruct (back X dec_text E d m N H F) as (m' & R & S). exists m'. split; [exact R|].
  destruct S as (_ & _ & _ & _ & _ & _ & _ & S & _). eapply Forall2_impl; [|exact S]. intros td td' (A & _ & B). split; assumption.
Qed.
Print Assumptions C33_types_kept.
(** Outside of what the notation can express, what the parser itself accepted is lost: annotations of a type,
    defaults of fields, backslashes in patterns, options of a field with a braced type, the members of an inline union. *)
Definition lost (lines : list string) (same : schema -> schema -> Prop) : Prop :=
  exists m, parse_sadl_string demo_ext no_files 0 9 (src lines) = Ok m
    /\ ~ exists m', read_string demo_ext no_files 0 (lex (decompile shop_text m)) = Ok m' /\ same (m_schema m) (m_schema m').
Lemma lost_by lines same : 
  match parse_sadl_string demo_ext no_files 0 9 (src lines) with
  | Ok m => match read_string demo_ext no_files 0 (lex (decompile shop_text m)) with Ok m' => ~ same (m_schema m) (m_schema m') | _ => True end
  | _ => False
  end -> lost lines same.
Proof.
  unfold lost. destruct (parse_sadl_string _ _ _ _ _) as [m|e| |]; try contradiction. intros H. exists m. split; [reflexivity|].
  intros (m' & R & S). rewrite R in H. exact (H S).
Qed.
Definition same_types (s s' : schema) : Prop := sc_types s' = sc_types s.
Theorem C33_all_models_refuted :
  lost ["name a"; "type A String (x_k=""v"")"] same_types
  /\ lost ["name a"; "type A Struct {"; "u String (default=""x"")"; "}"] same_types
  /\ lost ["name a"; "type A String (pattern=""\\d"")"] same_types
  /\ lost ["name a"; "type A Struct {"; "u Struct {"; "a String"; "} (required)"; "}"] same_types
  /\ lost ["name a"; "type A Struct {"; "u Union {"; "a String"; "b Int32"; "}"; "}"] same_types.
Proof. repeat split; apply lost_by; vm_compute; discriminate. Qed.
Print Assumptions C33_all_models_refuted.

(** ** C34 *)
Theorem C34_actions_round_trip : forall X dec_text E d m,
  plain_numbers X dec_text -> writable_schema X dec_text (m_schema m) -> collision_free (m_schema m) ->
  exists m', read_string X E d (lex (decompile dec_text m)) = Ok m'
    /\ Forall2 same_action (sc_http (m_schema m)) (sc_http (m_schema m')).
Proof.
  intros X dec_text E d m N H F. destruct (back X dec_text E d m N H F) as (m' & R & S). exists m'. split; [exact R|].
  apply S.
Qed.
Print Assumptions C34_actions_round_trip.
(** equal when no default contains an object *)
Theorem C34_actions_equal : forall X dec_text E d m,
  plain_numbers X dec_text -> writable_schema X dec_text (m_schema m) -> collision_free (m_schema m) ->
  Forall exact_http (sc_http (m_schema m)) ->
  exists m', read_string X E d (lex (decompile dec_text m)) = Ok m' /\ sc_http (m_schema m') = sc_http (m_schema m).
Proof.
  intros X dec_text E d m N H F T. destruct (back X dec_text E d m N H F) as (m' & R & S). exists m'. split; [exact R|].
  apply exact_https; [exact T|apply S].
Qed.
Print Assumptions C34_actions_equal.
Example C34_actions_equal_case : plain_numbers demo_ext shop_text /\ writable_schema demo_ext shop_text shop /\ collision_free shop
  /\ Forall exact_http (sc_http shop) /\ sc_http shop = [shop_action].
Proof. destruct shop_all as (A & B & D & F & _). split; [exact A|split; [exact B|split; [exact F|split; [apply D|reflexivity]]]]. Qed.
(** Not expressible: a resource name of one's own. *)
Theorem C34_all_actions_refuted :
  lost ["name a"; "http GET ""/a"" (resource=foo) {"; "expect 200 {"; "}"; "}"]
    (fun s s' => map h_name (sc_http s') = map h_name (sc_http s)).
Proof. apply lost_by; vm_compute; discriminate. Qed.
Print Assumptions C34_all_actions_refuted.

(** ** C56 *)
(** Operations and examples come back, the values of the examples up to the order in their objects. *)
Theorem C56_operations_round_trip_partial : forall X dec_text E d m,
  plain_numbers X dec_text -> writable_schema X dec_text (m_schema m) -> collision_free (m_schema m) ->
  exists m', read_string X E d (lex (decompile dec_text m)) = Ok m'
    /\ Forall2 same_op (sc_operations (m_schema m)) (sc_operations (m_schema m'))
    /\ Forall2 same_example (sc_examples (m_schema m)) (sc_examples (m_schema m')).
Proof.
  intros X dec_text E d m N H F. destruct (back X dec_text E d m N H F) as (m' & R & S). exists m'. split; [exact R|].
  split; apply S.
Qed.
Print Assumptions C56_operations_round_trip_partial.
Example C56_operations_round_trip_case : plain_numbers demo_ext shop_text /\ writable_schema demo_ext shop_text shop /\ collision_free shop
  /\ sc_operations shop = [shop_op] /\ length (sc_examples shop) = 3.
Proof. destruct shop_all as (A & B & D & F & _). split; [exact A|split; [exact B|split; [exact F|split; reflexivity]]]. Qed.
(** The text of an operation with outputs whose last input is required, or of an example without
    a name, cannot be read at all. *)
Theorem C56_all_operations_refuted :
  lost ["name a"; "operation foo {"; "inputs {"; "a String (required)"; "}"; "outputs {"; "b String"; "}"; "}"] (fun _ _ => True)
  /\ lost ["name a"; "type A Int32"; "example A 5"] (fun _ _ => True).
Proof. split; apply lost_by; vm_compute; exact I. Qed.
Print Assumptions C56_all_operations_refuted.

(** ** C57 *)
(** Comments whose words are separated by single blanks come back unchanged, however long they are. *)
Theorem C57_comments_round_trip_partial : forall X dec_text E d m,
  plain_numbers X dec_text -> writable_schema X dec_text (m_schema m) -> collision_free (m_schema m) ->
  exists m', read_string X E d (lex (decompile dec_text m)) = Ok m'
    /\ (spaced (sc_comment (m_schema m)) -> sc_comment (m_schema m') = sc_comment (m_schema m))
    /\ Forall2 (fun td td' => spaced (td_comment td) -> td_comment td' = td_comment td) (sc_types (m_schema m)) (sc_types (m_schema m'))
    /\ Forall2 (fun o o' => spaced (op_comment o) -> op_comment o' = op_comment o) (sc_operations (m_schema m)) (sc_operations (m_schema m'))
    /\ Forall2 (fun h h' => spaced (h_comment h) -> h_comment h' = h_comment h) (sc_http (m_schema m)) (sc_http (m_schema m'))
    /\ Forall2 (fun e e' => spaced (ex_comment e) -> ex_comment e' = ex_comment e) (sc_examples (m_schema m)) (sc_examples (m_schema m')).
Proof.
  intros X dec_text E d m N H F. destruct (back X dec_text E d m N H F) as (m' & R & S). exists m'. split; [exact R|].
  destruct S as (_ & _ & _ & _ & S0 & _ & _ & S1 & S2 & S3 & S4). split; [exact S0|].
  split; [eapply Forall2_impl; [|exact S1]; intros td td' (_ & A & _); exact A|].
  split; [eapply Forall2_impl; [|exact S2]; intros o o' (c & A & ->); exact A|].
  split; [eapply Forall2_impl; [|exact S3]; intros h h' (c & A & ins & x & x' & _ & _ & _ & ->); exact A|].
  eapply Forall2_impl; [|exact S4]. intros e e' (c & v & A & _ & ->). exact A.
Qed.
Print Assumptions C57_comments_round_trip_partial.
Example C57_comments_round_trip_case : plain_numbers demo_ext shop_text /\ writable_schema demo_ext shop_text shop /\ collision_free shop
  /\ spaced (sc_comment shop) /\ Forall (fun td => spaced (td_comment td)) (sc_types shop) /\ spaced (h_comment shop_action).
Proof.
  destruct shop_all as (A & B & (D1 & D2 & _) & F & _). split; [exact A|split; [exact B|split; [exact F|split; [exact D1|split]]]].
  - eapply Forall_impl; [|exact D2]. intros td (_ & _ & S). exact S.
  - idt.
Qed.
(** A comment behind a field of 61 characters or more moves above the field, where the next field's comment replaces it. *)
Definition long_text : string := "sixty-one characters are one too many for the end of the line".
Theorem C57_field_comments_refuted :
  lost ["name a"; "type A Struct {"; "u String // " +++ long_text; "v String"; "}"] same_types.
Proof. apply lost_by; vm_compute; discriminate. Qed.
Print Assumptions C57_field_comments_refuted.

(** ** C58 *)
(** A document that the notation can express in full comes back as the same model, tables included. *)
Theorem C58_model_round_trip_partial : forall X dec_text E d m,
  new_model (m_schema m) = Ok m ->
  plain_numbers X dec_text -> writable_schema X dec_text (m_schema m) -> exact_schema (m_schema m) ->
  sc_sadl (m_schema m) = e_version E -> (sc_namespace (m_schema m) = "" -> e_namespace E = "") ->
  read_string X E d (lex (decompile dec_text m)) = Ok m.
Proof.
  intros X dec_text E d m M N H HE V NS. unfold decompile. rewrite (schema_lex X dec_text N _ H).
  rewrite (decompiled_exact X dec_text E d _ H HE V NS), M. reflexivity.
Qed.
Print Assumptions C58_model_round_trip_partial.
(** so a model that passes the parser's checks is accepted again *)
Theorem C58_accepted_again_partial : forall X dec_text E d v m,
  new_model (m_schema m) = Ok m -> parser_validate X m v = Ok tt ->
  plain_numbers X dec_text -> writable_schema X dec_text (m_schema m) -> exact_schema (m_schema m) ->
  sc_sadl (m_schema m) = e_version E -> (sc_namespace (m_schema m) = "" -> e_namespace E = "") ->
  parse_sadl_string X E d v (lex (decompile dec_text m)) = Ok m.
Proof.
  intros X dec_text E d v m M PV N H HE V NS. unfold parse_sadl_string. rewrite (C58_model_round_trip_partial X dec_text E d m) by assumption.
  unfold check. rewrite PV. reflexivity.
Qed.
Print Assumptions C58_accepted_again_partial.
Example C58_accepted_again_case : exists m, new_model shop = Ok m /\ m_schema m = shop /\ parser_validate demo_ext m 9 = Ok tt
  /\ parse_sadl_string demo_ext no_files 0 9 (lex (decompile shop_text m)) = Ok m.
Proof.
  destruct (new_model shop) as [m|e| |] eqn:E; try (vm_compute in E; discriminate). exists m.
  assert (m_schema m = shop) as S by (vm_compute in E; injection E as <-; reflexivity).
  assert (parser_validate demo_ext m 9 = Ok tt) as V by (vm_compute in E; injection E as <-; vm_compute; reflexivity).
  split; [reflexivity|split; [exact S|split; [exact V|]]].
  apply C58_accepted_again_partial; try rewrite S; try assumption;
    [exact shop_numbers|exact shop_writable|exact shop_exact|reflexivity|discriminate].
Qed.
