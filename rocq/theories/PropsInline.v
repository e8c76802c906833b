(** Property theorems for ConvertInlineEnums (C18, C19). *)
From Verif Require Import GoStr Outcome Value Schema Scalars Time Model SpecTime SpecModel ModelFacts MemberFacts
  Misc SpecMisc Equiv EquivFacts InlineEnums SpecInline InlineFacts Demo.

(** ** C18 *)
(** [shared sch] is what NewModel builds: it finds the same types as the model of C01. *)
Theorem C18_same_lookup : forall sch m, new_model sch = Ok m ->
  forall n, lookup (shared sch) n = find_type m n.
Proof. exact lookup_find. Qed.
Print Assumptions C18_same_lookup.

Theorem C18_no_inline_enum_left_partial : forall sch m h',
  new_model sch = Ok m -> no_empty_enum sch ->
  convert_inline_enums (shared sch) = (h', true) ->
  forall td f, In td (hm_types h') -> ts_type (td_spec td) = "Struct" ->
    In f (ts_fields (td_spec td)) -> ts_type (fd_spec f) <> "Enum".
Proof. exact no_inline_left. Qed.
Print Assumptions C18_no_inline_enum_left_partial.

(** When the made-up names collide with nothing the call succeeds, and the model afterwards is the
    one NewModel would build for the new list of types: every name defined before is defined
    after, with the same values, and names are still unique. *)
Theorem C18_meaning_partial : forall X sch m,
  new_model sch = Ok m -> fresh capitalize sch ->
  exists sch2 m2, convert_inline_enums (shared sch) = (shared sch2, true)
    /\ sch2 = with_types sch (sc_types sch2) /\ new_model sch2 = Ok m2
    /\ NoDup (map td_name (sc_types sch2))
    /\ (forall n ts, defines sch n ts -> exists ts2, defines sch2 n ts2
          /\ forall v, accepts X sch2 ts2 v <-> accepts X sch ts v).
Proof. exact meaning_preserved. Qed.
Print Assumptions C18_meaning_partial.

Definition car_types : list typedef :=
  [ tdef "Car" (ts_struct [fld "color" true (ts_enum ["red"; "blue"]); fld "n" false (ts_of "Int32");
                           fld "carKind" false (ts_enum ["x"; "y"])]);
    tdef "Cars" (ts_array "Car" None None) ].
Definition car_schema : schema := schema_of car_types [].
Definition model_of (sch : schema) : model := match new_model sch with Ok m => m | _ => mkModel sch [] [] end.
Lemma car_model_ok : new_model car_schema = Ok (model_of car_schema).
Proof. vm_compute. reflexivity. Qed.

Lemma car_inline td f : inline_enum car_schema td f -> td_name td = "Car" /\
  (f = fld "color" true (ts_enum ["red"; "blue"]) \/ f = fld "carKind" false (ts_enum ["x"; "y"])).
Proof.
  intros (Htd & Ht & Hf & He). simpl in Htd. destruct Htd as [<-|[<-|[]]]; [|discriminate].
  split; [reflexivity|]. simpl in Hf. destruct Hf as [<-|[<-|[<-|[]]]]; auto. discriminate.
Qed.
Lemma car_inline_td td f : inline_enum car_schema td f -> td = hd (tdef "" (ts_of "")) car_types.
Proof.
  intros (Htd & Ht & Hf & He). simpl in Htd. destruct Htd as [<-|[<-|[]]]; [reflexivity|discriminate].
Qed.
Lemma car_given td f n : inline_enum car_schema td f -> given_name capitalize (td_name td) (fd_name f) n ->
  (f = fld "color" true (ts_enum ["red"; "blue"]) /\ n = "CarColor")
  \/ (f = fld "carKind" false (ts_enum ["x"; "y"]) /\ n = "CarKind").
Proof.
  intros Hi Hg. destruct (car_inline td f Hi) as (E & [->| ->]); rewrite E in Hg; apply given_name_synth in Hg; subst n;
    [left|right]; split; reflexivity.
Qed.
Example C18_meaning_instance : fresh capitalize car_schema /\ no_empty_enum car_schema.
Proof.
  split; [constructor|].
  - intros td f n Hi Hg Hn. destruct (car_given td f n Hi Hg) as [[_ ->]|[_ ->]]; simpl in Hn; intuition discriminate.
  - intros td f n Hi Hg Hn. destruct (car_given td f n Hi Hg) as [[_ ->]|[_ ->]]; discriminate.
  - intros td f n Hi Hg Hn. destruct (car_given td f n Hi Hg) as [[_ ->]|[_ ->]]; simpl in Hn; intuition discriminate.
  - intros td f n td2 Hi Hg Hin Hm.
    assert (Hn : n = "CarColor" \/ n = "CarKind") by (destruct (car_given td f n Hi Hg) as [[_ ->]|[_ ->]]; auto).
    clear Hi Hg. simpl in Hin. destruct Hin as [<-|[<-|[]]].
    + inversion Hm as [a b Ha|a b Ha|a b Ha|a b Ha|a g b Hg Hm']; subst; try (destruct Hn; discriminate).
      simpl in Hg. destruct Hg as [<-|[<-|[<-|[]]]];
        inversion Hm' as [a b Ha|a b Ha|a b Ha|a b Ha|a g b Hg Hm'']; subst;
        first [destruct Hg|destruct Hn; discriminate].
    + inversion Hm as [a b Ha|a b Ha|a b Ha|a b Ha|a g b Hg Hm']; subst; first [destruct Hg|destruct Hn; discriminate].
  - intros td f td2 f2 n Hi Hi2 Hg Hg2. split; [now rewrite (car_inline_td td f Hi), (car_inline_td td2 f2 Hi2)|].
    destruct (car_given td f n Hi Hg) as [[-> ->]|[-> ->]]; destruct (car_given td2 f2 _ Hi2 Hg2) as [[-> E]|[-> E]];
      try reflexivity; discriminate.
  - intros td Htd Ht. simpl in Htd. destruct Htd as [<-|[<-|[]]]; [|discriminate].
    repeat constructor; simpl; intuition discriminate.
  - intros td f Hi. destruct (car_inline td f Hi) as (_ & [->| ->]); discriminate.
Qed.
Example C18_car_converted : map td_name (hm_types (fst (convert_inline_enums (shared car_schema))))
  = ["Car"; "Cars"; "CarColor"; "CarKind"].
Proof. vm_compute. reflexivity. Qed.

(** Names do not stay unique when an equivalent enum of that name already exists. *)
Theorem C18_unique_names_refuted : exists sch m h',
  new_model sch = Ok m /\ convert_inline_enums (shared sch) = (h', true) /\ ~ NoDup (map td_name (hm_types h')).
Proof.
  set (sch := schema_of [tdef "T" (ts_struct [fld "b" true (ts_enum ["x"])]); tdef "TB" (ts_enum ["x"])] []).
  exists sch, (model_of sch), (fst (convert_inline_enums (shared sch))).
  split; [vm_compute; reflexivity|]. split; [vm_compute; reflexivity|].
  vm_compute. intro H. inversion H as [|a b Ha Hb]; subst. inversion Hb as [|c d Hc Hd]; subst. apply Hc. now left.
Qed.
Print Assumptions C18_unique_names_refuted.

(** A type can lose values: two fields whose names differ only in the case of the first letter
    get one enum name, and both fields end up with the symbols of the second. *)
Definition bb_schema : schema :=
  schema_of [tdef "T" (ts_struct [fld "b" false (ts_enum ["x"]); fld "B" false (ts_enum ["y"])])] [].
Definition bb_after : schema :=
  schema_of [tdef "T" (ts_struct [fld "b" false (ts_of "TB"); fld "B" false (ts_of "TB")]); tdef "TB" (ts_enum ["y"])] [].
Theorem C18_values_refuted : exists X sch m h',
  new_model sch = Ok m /\ no_empty_enum sch /\ convert_inline_enums (shared sch) = (h', true)
  /\ exists sch2 m2, new_model sch2 = Ok m2 /\ (forall n, lookup h' n = find_type m2 n)
  /\ exists ts ts2 v, defines sch "T" ts /\ defines sch2 "T" ts2 /\ accepts X sch ts v /\ ~ accepts X sch2 ts2 v.
Proof.
  exists demo_ext, bb_schema, (model_of bb_schema), (fst (convert_inline_enums (shared bb_schema))).
  assert (M2 : new_model bb_after = Ok (model_of bb_after)) by (vm_compute; reflexivity).
  split; [vm_compute; reflexivity|]. split.
  { intros td f (Htd & Ht & Hf & He). simpl in Htd. destruct Htd as [<-|[]]. simpl in Hf.
    destruct Hf as [<-|[<-|[]]]; discriminate. }
  split; [vm_compute; reflexivity|].
  exists bb_after, (model_of bb_after). split; [exact M2|]. split.
  { intro n. rewrite <- (lookup_find _ _ M2). unfold lookup.
    assert (E : hm_index (fst (convert_inline_enums (shared bb_schema)))
                = map (fun n => (n, IBase n)) base_types ++ [("T", IDecl 0); ("TB", IDecl 2)]) by (vm_compute; reflexivity).
    assert (E2 : hm_index (shared bb_after)
                = map (fun n => (n, IBase n)) base_types ++ [("T", IDecl 0); ("TB", IDecl 1)]) by (vm_compute; reflexivity).
    rewrite E, E2, !assoc_app. destruct (assoc n (map (fun n => (n, IBase n)) base_types)) as [r|] eqn:Er.
    - apply assoc_In in Er. apply in_map_iff in Er. destruct Er as (b & Hb & _). injection Hb as <- <-. reflexivity.
    - cbn [assoc]. destruct (n =?s "T"); [reflexivity|]. destruct (n =?s "TB"); reflexivity. }
  exists (ts_struct [fld "b" false (ts_enum ["x"]); fld "B" false (ts_enum ["y"])]),
         (ts_struct [fld "b" false (ts_of "TB"); fld "B" false (ts_of "TB")]), (VMap [("b", VStr "x")]).
  split; [eexists; split; [right; split; [left; reflexivity|reflexivity]|reflexivity]|].
  split; [eexists; split; [right; split; [left; reflexivity|reflexivity]|reflexivity]|]. split.
  - apply ac_struct; [reflexivity| |].
    + split.
      * intros k [<-|[]]. eexists. split; [left; reflexivity|reflexivity].
      * intros f [<-|[<-|[]]] Hr; discriminate.
    + intros f x Hf [Hx|[]]. injection Hx as Hn <-. destruct Hf as [<-|[<-|[]]]; [|discriminate].
      eapply ac_enum; [reflexivity|constructor; reflexivity|discriminate|].
      exists (elt "x"). split; [now left|reflexivity].
  - intro A. apply accepts_struct_inv in A; [|reflexivity]. destruct A as (l & E & _ & Hf). injection E as <-.
    assert (B := Hf (fld "b" false (ts_of "TB")) (VStr "x") (or_introl eq_refl) (or_introl eq_refl)). cbn [fd_spec fld] in B.
    assert (R : refers bb_after (ts_of "TB") (ts_enum ["y"])).
    { split; [simpl; intuition discriminate|]. exists (tdef "TB" (ts_enum ["y"])). split; [right|reflexivity].
      split; [right; left; reflexivity|reflexivity]. }
    assert (C := accepts_ref_inv demo_ext bb_after _ M2 _ _ _ R B).
    inversion C as [| | | | | | | | | | |ts v s Ht Hv Hs He| | | | | |ts ts' v Hr]; subst; try discriminate.
    + destruct He as (e & [<-|[]] & E). simpl in E. subst s. inversion Hv; subst; discriminate.
    + destruct Hr as [Hr _]. apply Hr. simpl. tauto.
Qed.
Print Assumptions C18_values_refuted.

(** ** C19 *)
Theorem C19_idempotent_partial : forall sch m h',
  new_model sch = Ok m -> no_empty_enum sch ->
  convert_inline_enums (shared sch) = (h', true) -> convert_inline_enums h' = (h', true).
Proof. exact convert_twice. Qed.
Print Assumptions C19_idempotent_partial.
Example C19_idempotent_instance : snd (convert_inline_enums (shared car_schema)) = true.
Proof. vm_compute. reflexivity. Qed.

(** The call fails exactly when a made-up name is taken by something that is not the same enum. *)
Theorem C19_fails_iff : forall sch m, new_model sch = Ok m ->
  (snd (convert_inline_enums (shared sch)) = false <->
   exists td f n td2, inline_enum sch td f /\ given_name capitalize (td_name td) (fd_name f) n
     /\ declares sch n td2
     /\ ~ (ts_type (td_spec td2) = "Enum"
           /\ length (ts_elements (td_spec td2)) = length (ts_elements (fd_spec f))
           /\ incl (map ee_symbol (ts_elements (fd_spec f))) (map ee_symbol (ts_elements (td_spec td2))))).
Proof. exact convert_fails_iff. Qed.
Print Assumptions C19_fails_iff.
Definition half_schema : schema :=
  schema_of [ tdef "T" (ts_struct [fld "a" false (ts_enum ["x"]); fld "b" false (ts_enum ["y"])]);
              tdef "TB" (ts_of "String") ] [].
Example C19_fails_instance : new_model half_schema = Ok (model_of half_schema)
  /\ snd (convert_inline_enums (shared half_schema)) = false.
Proof. vm_compute. auto. Qed.

(** The failing call leaves the model changed: here field a now refers to a type that does not exist. *)
Theorem C19_atomic_refuted : exists sch m h',
  new_model sch = Ok m /\ convert_inline_enums (shared sch) = (h', false) /\ h' <> shared sch
  /\ exists td f, In td (hm_types h') /\ In f (ts_fields (td_spec td)) /\ lookup h' (ts_type (fd_spec f)) = None.
Proof.
  exists half_schema, (model_of half_schema), (fst (convert_inline_enums (shared half_schema))).
  split; [vm_compute; reflexivity|]. split; [vm_compute; reflexivity|]. split; [vm_compute; discriminate|].
  eexists. eexists. split; [left; reflexivity|]. split; [left; reflexivity|]. vm_compute. reflexivity.
Qed.
Print Assumptions C19_atomic_refuted.
(** What survives a failure: the index, the names and order of the types, and everything but structs. *)
Theorem C19_atomic_partial : forall h h', convert_inline_enums h = (h', false) ->
  hm_index h' = hm_index h /\
  Forall2 (fun td td' => td_name td' = td_name td /\ (ts_type (td_spec td) <> "Struct" -> td' = td))
    (hm_types h) (hm_types h').
Proof. exact convert_err. Qed.
Print Assumptions C19_atomic_partial.
