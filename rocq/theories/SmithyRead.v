(** The shapes of types read as types. *)
From Verif Require Import GoStr Outcome Value Schema Misc MiscFacts Model SpecModel ModelFacts SpecPV PVFacts SpecMisc SpecGen OpenApi SpecOpenApi
  OpenApiFacts SpecImport Smithy SmithyFacts SmithyAst SpecSmithy SmithyWrite SmithyShapes SmithyFinal SmithyTypes.

Lemma Forall2_map_r {A B} (R : A -> B -> Prop) (f : A -> B) l : (forall x, In x l -> R x (f x)) -> Forall2 R l (map f l).
Proof. intros H. induction l as [|x l IH]; constructor; [apply H; left; reflexivity|]. apply IH. intros y I. apply H. right. exact I. Qed.

Section Read.
Context (L : slib) (ns : string) (shapes : list (string * shape)).
Hypothesis HU : user_namespace ns.

Lemma read_kind n s :
  (In (sh_type s) ["byte"; "short"; "integer"; "long"; "float"; "double"; "bigDecimal"] -> read_shape L shapes n s = types_part (read_number L shapes n s))
  /\ (sh_type s = "string" -> read_shape L shapes n s = types_part (Ok (read_string L n s)))
  /\ (sh_type s = "list" -> read_shape L shapes n s = types_part (read_list L n s false))
  /\ (sh_type s = "set" -> read_shape L shapes n s = types_part (read_list L n s true))
  /\ (sh_type s = "map" -> read_shape L shapes n s = types_part (read_map L n s))
  /\ (sh_type s = "structure" -> read_shape L shapes n s = types_part (read_struct L shapes n s))
  /\ (sh_type s = "union" -> read_shape L shapes n s = types_part (read_union L shapes n s))
  /\ (sh_type s = "enum" -> read_shape L shapes n s = types_part (read_enum L shapes n s))
  /\ (sh_type s = "service" -> read_shape L shapes n s = Ok (mkPart [] [] [] []))
  /\ (sh_type s = "operation" -> read_shape L shapes n s = read_op_shape L shapes n s).
Proof.
  split; [|repeat split; intros E; unfold read_shape; rewrite E; reflexivity].
  intros I. unfold read_shape. simpl in I. repeat (destruct I as [I|I]; [rewrite <- I; reflexivity|]). destruct I.
Qed.
Lemma strip_id n : strip_namespace (id_of ns n) = n.
Proof. apply strip_qualified. apply HU. Qed.

(** ** Members *)
Lemma annos_app t t' a : traits_annos L shapes a (t ++ t') = (b <- traits_annos L shapes a t ;; traits_annos L shapes b t').
Proof.
  revert a. induction t as [|kv t IH]; intros a; cbn [traits_annos app]; [reflexivity|]. destruct (trait_anno L shapes a kv); cbn [rbind]; [apply IH|reflexivity ..].
Qed.
Lemma rbind_ret {E A} (r : result E A) : (b <- r ;; Ok b) = r.
Proof. destruct r; reflexivity. Qed.
Lemma paid_traits m : ~ In "smithy.api#httpPayload" (map fst (mb_traits m)) ->
  traits_annos L shapes [] (mb_traits (paid m)) = traits_annos L shapes [] (mb_traits m)
  /\ (forall q, q <> "smithy.api#httpPayload" -> get q (mb_traits (paid m)) = get q (mb_traits m)) /\ mb_target (paid m) = mb_target m.
Proof.
  intros N. unfold paid, add_mtrait. simpl mb_traits. split; [|split; [|reflexivity]].
  - rewrite put_fresh by exact N. rewrite annos_app. cbn [traits_annos]. rewrite <- (rbind_ret (traits_annos L shapes [] (mb_traits m))) at 2.
    destruct (traits_annos L shapes [] (mb_traits m)); reflexivity.
  - intros q H. rewrite get_put. apply seqb_neq in H. rewrite H. reflexivity.
Qed.
Definition members_like (ms ms' : list (string * member)) : Prop := ms' = ms \/ exists k m, ms = [(k, m)] /\ ms' = [(k, paid m)].
Definition unpaid (ms : list (string * member)) : Prop := forall k m, In (k, m) ms -> ~ In "smithy.api#httpPayload" (map fst (mb_traits m)).
Lemma doc_paid m : ~ In "smithy.api#httpPayload" (map fst (mb_traits m)) -> doc_of (mb_traits (paid m)) = doc_of (mb_traits m).
Proof. intros N. destruct (paid_traits m N) as (_ & G & _). unfold doc_of, t_text. rewrite G by discriminate. reflexivity. Qed.
Lemma fields_like ms ms' : members_like ms ms' -> unpaid ms -> read_fields L shapes ms' = read_fields L shapes ms.
Proof.
  intros [->|(k & m & -> & ->)] U; [reflexivity|]. assert (N : ~ In "smithy.api#httpPayload" (map fst (mb_traits m))) by (apply (U k m); left; reflexivity).
  destruct (paid_traits m N) as (A & G & T). cbn [read_fields]. rewrite A, (doc_paid m N), T. unfold t_bool. rewrite G by discriminate. reflexivity.
Qed.
Lemma elements_like ms ms' : members_like ms ms' -> unpaid ms -> read_elements L shapes ms' = read_elements L shapes ms.
Proof.
  intros [->|(k & m & -> & ->)] U; [reflexivity|]. assert (N : ~ In "smithy.api#httpPayload" (map fst (mb_traits m))) by (apply (U k m); left; reflexivity).
  destruct (paid_traits m N) as (A & G & T). cbn [read_elements]. rewrite A, (doc_paid m N). reflexivity.
Qed.
Lemma variants_like ms ms' : members_like ms ms' -> unpaid ms -> read_variants L shapes ms' = read_variants L shapes ms.
Proof.
  intros [->|(k & m & -> & ->)] U; [reflexivity|]. assert (N : ~ In "smithy.api#httpPayload" (map fst (mb_traits m))) by (apply (U k m); left; reflexivity).
  destruct (paid_traits m N) as (A & G & T). cbn [read_variants]. rewrite A, (doc_paid m N), T. reflexivity.
Qed.
Lemma read_fields_back fs : (forall f, In f fs -> no_hash (ts_type (fd_spec f))) ->
  exists gs, read_fields L shapes (map (fun f : fielddef => (fd_name f, field_member ns f)) fs) = Ok gs /\ Forall2 field_back fs gs.
Proof.
  induction fs as [|f fs IH]; intros H; [exists []; split; [reflexivity|constructor]|].
  destruct (IH (fun x I => H x (or_intror I))) as (gs & E & F). eexists. split; [|constructor; [reflexivity|exact F]].
  cbn [map read_fields]. rewrite E. unfold field_member. simpl mb_target. rewrite (reference_back ns HU) by (apply H; left; reflexivity). simpl mb_traits.
  destruct (fd_required f); reflexivity.
Qed.
Lemma read_elements_back es : (forall e, In e es -> NoDup (map fst (ee_annos e))) ->
  exists gs, read_elements L shapes (map (fun e => (ee_symbol e, enum_member e)) es) = Ok gs /\ Forall2 elt_back es gs.
Proof.
  induction es as [|e es IH]; intros H; [exists []; split; [reflexivity|constructor]|].
  destruct (IH (fun x I => H x (or_intror I))) as (gs & E & F). cbn [map read_elements]. rewrite E. unfold enum_member. simpl mb_traits.
  assert (N : NoDup (map fst (ee_annos e))) by (apply H; left; reflexivity).
  destruct (get "x_enumValue" (ee_annos e)) as [v|] eqn:G.
  - apply (get_In _ _ _ N) in G. cbn [traits_annos]. unfold trait_anno. cbn [String.eqb Ascii.eqb Bool.eqb str_mem existsb orb rbind as_text]. unfold with_anno. destruct (v =?s "") eqn:X.
    + apply seqb_eq in X. subst v. eexists. split; [reflexivity|]. constructor; [|exact F]. split; [reflexivity|]. split; [reflexivity|]. right. split; [|reflexivity].
      intros v I. apply (get_In _ _ _ N) in I. apply (get_In _ _ _ N) in G. congruence.
    + apply seqb_neq in X. eexists. split; [reflexivity|]. constructor; [|exact F]. split; [reflexivity|]. split; [reflexivity|]. left. exists v. split; [exact X|]. split; [exact G|reflexivity].
  - eexists. split; [reflexivity|]. constructor; [|exact F]. split; [reflexivity|]. split; [reflexivity|]. right. split; [|reflexivity].
    intros v I. apply (get_In _ _ _ N) in I. congruence.
Qed.
Lemma read_variants_back vs : (forall v, In v vs -> no_hash (ts_type (uv_spec v))) ->
  exists gs, read_variants L shapes (map (fun v : variantdef => (uv_name v, variant_member ns v)) vs) = Ok gs /\ Forall2 variant_back vs gs.
Proof.
  induction vs as [|v vs IH]; intros H; [exists []; split; [reflexivity|constructor]|].
  destruct (IH (fun x I => H x (or_intror I))) as (gs & E & F). eexists. split; [cbn [map read_variants]; rewrite E; reflexivity|]. constructor; [|exact F].
  exists (escape_comment (uv_comment v)), (shape_to_type (ensure_namespaced ns (ts_type (uv_spec v)))). split; [apply escape_back|].
  split; [apply (variant_back_ok ns HU); apply H; left; reflexivity|]. reflexivity.
Qed.

(** ** Types *)
Lemma size_back_ok o : size_back L o (match o with Some z => if (sl_size L z =? 0)%Z then None else Some (sl_size L z) | None => None end).
Proof. destruct o as [z|]; simpl; [|reflexivity]. destruct (sl_size L z =? 0)%Z eqn:E; [left|right]; split; try reflexivity; lia. Qed.
Lemma get_annotation_true a k : NoDup (map fst a) -> get_annotation a k = "true" <-> In (k, "") a \/ In (k, "true") a.
Proof.
  intros N. unfold get_annotation. assert (E : assoc k a = get k a) by (induction a as [|[x y] a IH]; simpl; [reflexivity|]; inversion N; rewrite IH by assumption; reflexivity).
  rewrite E. destruct (get k a) as [s|] eqn:G.
  - apply (get_In _ _ _ N) in G. destruct (s =?s "") eqn:X.
    + apply seqb_eq in X. subst s. tauto.
    + apply seqb_neq in X. split; [intros ->; auto|]. intros [I|I]; apply (get_In _ _ _ N) in I; apply (get_In _ _ _ N) in G; congruence.
  - split; [discriminate|]. intros [I|I]; apply (get_In _ _ _ N) in I; congruence.
Qed.
Lemma type_read sch td s : In td (sc_types sch) -> typedef_shape ns td = Ok s -> td_name td <> "UUID" -> annos_once sch -> members_once sch -> refs_plain sch ->
  exists td', read_shape L shapes (id_of ns (td_name td)) (marks (flat_map h_exceptions (sc_http sch)) (td_name td) s) = Ok (mkPart [td'] [] [] [])
  /\ type_back L sch td td'.
Proof.
  intros I HS NU (_ & AO & AE) MO (RP & _). set (xs := flat_map h_exceptions (sc_http sch)).
  assert (X0 : exists s0, shape_of_type ns (td_spec td) (td_annos td) = Ok s0) by (unfold typedef_shape in HS; apply rbind_Ok in HS; destruct HS as (s0 & X & _); exists s0; exact X).
  destruct X0 as (s0 & H0). specialize (AO td I). specialize (AE td). specialize (MO td I). specialize (RP td I).
  assert (EF : marks xs (td_name td) s = fshape ns td xs) by (unfold fshape, tshape; rewrite HS; reflexivity). rewrite EF.
  pose proof (final_rest ns td s0 xs H0) as (FT & FM & FK & FV & FMS). fold (members_like (sh_members s0) (sh_members (fshape ns td xs))) in FMS.
  pose proof (final_doc_back ns td s0 xs H0) as FD.
  pose proof (final_get ns td s0 xs H0) as FG.
  pose proof (final_annos L ns td s0 xs H0 AO shapes) as FA.
  set (fs := fshape ns td xs) in *. clearbody fs. clear EF HS.
  assert (ANNO : forall a, In (ts_type (td_spec td)) (number_kinds ++ ["Enum"; "Struct"; "Union"]) ->
     (forall k v, In (k, v) a <-> trait_annos_back L td xs k v) -> forall k v, In (k, v) a <-> anno_back L sch td k v).
  { intros a K Q k v. rewrite Q. unfold trait_annos_back, anno_back, xs.
    assert (LS : forall P : Z -> Prop, (exists z, last_of (flat_map h_exceptions (sc_http sch)) (td_name td) = Some z /\ P z) <-> exists z, last_status sch (td_name td) z /\ P z).
    { intros P. split; intros (z & Z1 & Z2); exists z; (split; [apply last_of_iff; exact Z1|exact Z2]). }
    rewrite (LS (fun z => v = category z)), (LS (fun z => v = sl_text L z)). split; [intros X; left; auto|]. intros [[_ X]|(E & _)]; [exact X|].
    exfalso. rewrite E in K. vm_compute in K. intuition discriminate. }
  assert (NOANNO : ~ In (ts_type (td_spec td)) (number_kinds ++ ["Enum"; "Struct"; "Union"]) -> ts_type (td_spec td) <> "Array" -> forall k v, In (k, v) [] <-> anno_back L sch td k v).
  { intros K NA k v. split; [intros []|]. intros [[J _]|[E _]]; contradiction. }
  pose proof (read_kind (id_of ns (td_name td)) fs) as (RN & RS & RL & RT & RM & RC & RU & RE & _ & _).
  pose proof H0 as HK. unfold shape_of_type in HK. destruct (str_mem (ts_type (td_spec td)) number_types) eqn:NT.
  { apply str_mem_In in NT. assert (K : In (ts_type (td_spec td)) (number_kinds ++ ["Enum"; "Struct"; "Union"])) by (apply in_app_iff; left; exact NT).
    destruct (FA K) as (a & EA & QA). injection HK as <-. simpl in FT. eexists. rewrite RN.
    2:{ rewrite FT. unfold number_types in NT. simpl in NT. repeat (destruct NT as [<-|NT]; [simpl; tauto|]). destruct NT. }
    unfold read_number. rewrite EA. cbn [rbind]. rewrite strip_id.
    assert (RNG : match t_map "smithy.api#range" (sh_traits fs) with
       | Some l => (m_dec L "min" l, m_dec L "max" l) | None => (None, None) end = (bound_back L (ts_min (td_spec td)), bound_back L (ts_max (td_spec td)))).
    { unfold t_map. rewrite FG by (simpl; intuition discriminate). simpl sh_traits. unfold range_trait. destruct (ts_min (td_spec td)), (ts_max (td_spec td)); reflexivity. }
    rewrite RNG. cbn [types_part rbind]. split; [reflexivity|]. split; [reflexivity|]. split; [exact FD|]. split.
    - simpl td_spec. match goal with |- spec_back _ _ (spec_like ?t _ _ _ _ _ _ _ _ _ _ _) => replace t with (ts_type (td_spec td)) end; [apply sb_number; exact NT|].
      rewrite FT. unfold number_types in NT. simpl in NT. repeat (destruct NT as [<-|NT]; [reflexivity|]). destruct NT.
    - assert (E : (if sh_type fs =?s "bigInteger" then with_anno "x_integer" "true" a else a) = a).
      { rewrite FT. unfold number_types in NT. simpl in NT. repeat (destruct NT as [<-|NT]; [reflexivity|]). destruct NT. }
      simpl td_annos. rewrite E. apply ANNO; [exact K|exact QA]. }
  destruct (ts_type (td_spec td) =?s "String") eqn:E1.
  { apply seqb_eq in E1. injection HK as <-. simpl in FT. eexists. rewrite (RS FT). unfold read_string. rewrite strip_id. apply seqb_neq in NU as NU'. rewrite NU'.
    set (ts := td_spec td) in *.
    assert (GP : t_text "smithy.api#pattern" (sh_traits fs) = ts_pattern ts).
    { unfold t_text. rewrite FG by (simpl; intuition discriminate). unfold shape_of_string, length_trait. simpl sh_traits. destruct (ts_minsize ts), (ts_maxsize ts), (ts_pattern ts =?s "") eqn:X, (ts_values ts) as [[|? ?]|]; simpl;
        try reflexivity; apply seqb_eq in X; symmetry; exact X. }
    assert (GS : read_sizes L (sh_traits fs) =
       (match ts_minsize ts with Some z => if (sl_size L z =? 0)%Z then None else Some (sl_size L z) | None => None end,
        match ts_maxsize ts with Some z => if (sl_size L z =? 0)%Z then None else Some (sl_size L z) | None => None end)).
    { unfold read_sizes, t_map. rewrite FG by (simpl; intuition discriminate).
      unfold shape_of_string, length_trait. simpl sh_traits. destruct (ts_minsize ts), (ts_maxsize ts), (ts_pattern ts =?s "") eqn:X, (ts_values ts) as [[|? ?]|]; reflexivity. }
    assert (GV : match t_arr "smithy.api#enum" (sh_traits fs) with
       | Some (v :: l) => Some (map (fun x => t_text "value" (as_obj x)) (v :: l)) | _ => None end = values_back (ts_values ts)).
    { assert (M : forall l, map (fun x => t_text "value" (as_obj x)) (map (fun s => TObj [("value", TStr s)]) l) = l).
      { intros l. rewrite map_map. simpl. apply map_id. }
      unfold t_arr. rewrite FG by (simpl; intuition discriminate). unfold shape_of_string, length_trait, values_back. simpl sh_traits.
      destruct (ts_minsize ts), (ts_maxsize ts), (ts_pattern ts =?s "") eqn:X, (ts_values ts) as [[|v l]|]; try reflexivity; unfold enum_trait; cbn [get app String.eqb Ascii.eqb Bool.eqb map];
        f_equal; f_equal; apply (M l). }
    rewrite GP, GS, GV. cbn [types_part rbind]. split; [reflexivity|]. split; [reflexivity|]. split; [exact FD|]. split.
    - simpl td_spec. fold ts. destruct (ts_pattern ts =?s uuid_pattern) eqn:X.
      + apply seqb_eq in X. apply sb_string_uuid; assumption.
      + apply seqb_neq in X. apply sb_string; [exact E1|exact X|apply size_back_ok|apply size_back_ok].
    - simpl td_annos. apply NOANNO; rewrite E1; [vm_compute; intuition discriminate|discriminate]. }
  destruct (ts_type (td_spec td) =?s "Enum") eqn:E2.
  { apply seqb_eq in E2. assert (K : In (ts_type (td_spec td)) (number_kinds ++ ["Enum"; "Struct"; "Union"])) by (rewrite E2; vm_compute; tauto).
    destruct (FA K) as (a & EA & QA). injection HK as <-. simpl in FT. rewrite (RE FT). unfold read_enum. rewrite EA. cbn [rbind].
    destruct MO as (_ & MO & _). specialize (MO E2). unfold shape_of_enum in FMS. simpl sh_members in FMS. rewrite (put_all_map _ _ _ MO) in FMS.
    rewrite (elements_like _ _ FMS). 2:{ intros k m J. apply in_map_iff in J. destruct J as (e & Q & _). injection Q as <- <-. unfold enum_member. simpl. destruct (get _ _); simpl; intuition discriminate. }
    destruct (read_elements_back (ts_elements (td_spec td))) as (gs & EG & FB); [intros e J; apply AE; assumption|]. rewrite EG. cbn [types_part rbind]. rewrite strip_id.
    eexists. split; [reflexivity|]. split; [reflexivity|]. split; [exact FD|]. split; [apply sb_enum; assumption|]. apply ANNO; assumption. }
  destruct (ts_type (td_spec td) =?s "Struct") eqn:E3.
  { apply seqb_eq in E3. assert (K : In (ts_type (td_spec td)) (number_kinds ++ ["Enum"; "Struct"; "Union"])) by (rewrite E3; vm_compute; tauto).
    destruct (FA K) as (a & EA & QA). injection HK as <-. simpl in FT. rewrite (RC FT). unfold read_struct. rewrite EA. cbn [rbind].
    destruct MO as (MO & _). specialize (MO E3). unfold shape_of_struct in FMS. simpl sh_members in FMS. rewrite (put_all_map _ _ _ MO) in FMS.
    rewrite (fields_like _ _ FMS). 2:{ intros k m J. apply in_map_iff in J. destruct J as (e & Q & _). injection Q as <- <-. unfold field_member. simpl. destruct (fd_required e); simpl; intuition discriminate. }
    destruct (read_fields_back (ts_fields (td_spec td))) as (gs & EG & FB); [intros e J; apply RP; assumption|]. rewrite EG. cbn [types_part rbind]. rewrite strip_id.
    eexists. split; [reflexivity|]. split; [reflexivity|]. split; [exact FD|]. split; [apply sb_struct; assumption|]. apply ANNO; assumption. }
  destruct (ts_type (td_spec td) =?s "Array") eqn:E4.
  { apply seqb_eq in E4. injection HK as <-. unfold shape_of_array in FT, FM. simpl in FT, FM.
    assert (BND : read_bound L "smithy.api#min" (sh_traits fs) = None /\ read_bound L "smithy.api#max" (sh_traits fs) = None).
    { unfold read_bound, t_long. rewrite !FG by (simpl; intuition discriminate). unfold shape_of_array, length_trait. simpl sh_traits.
      destruct (ts_minsize (td_spec td)), (ts_maxsize (td_spec td)); split; reflexivity. }
    destruct BND as [B1 B2]. eexists. split.
    { instantiate (1 := mkTD (td_name td) (doc_of (sh_traits fs)) (if get_annotation (td_annos td) "x_unique" =?s "true" then [("x_unique", "true")] else [])
         (plain_spec "Array" (name_back (ts_items (td_spec td))))).
      destruct (get_annotation (td_annos td) "x_unique" =?s "true"); [rewrite (RT FT)|rewrite (RL FT)]; unfold read_list; rewrite FM, B1, B2, strip_id; simpl mb_target;
        rewrite reference_namespaced, (reference_back ns HU) by apply RP; reflexivity. }
    split; [reflexivity|]. split; [exact FD|]. split; [apply sb_array; exact E4|]. intros k v. simpl td_annos. unfold anno_back. rewrite E4.
    pose proof (get_annotation_true (td_annos td) "x_unique" AO) as GA. destruct (get_annotation (td_annos td) "x_unique" =?s "true") eqn:X.
    - apply seqb_eq in X. apply GA in X. split; [intros [Q|[]]; injection Q as <- <-; right; auto|]. intros [[Q _]|(_ & -> & -> & _)]; [vm_compute in Q; intuition discriminate|]. left. reflexivity.
    - apply seqb_neq in X. split; [intros []|]. intros [[Q _]|(_ & -> & -> & Q)]; [vm_compute in Q; intuition discriminate|]. elim X. apply GA. exact Q. }
  destruct (ts_type (td_spec td) =?s "Union") eqn:E5.
  { apply seqb_eq in E5. assert (K : In (ts_type (td_spec td)) (number_kinds ++ ["Enum"; "Struct"; "Union"])) by (rewrite E5; vm_compute; tauto).
    destruct (FA K) as (a & EA & QA). injection HK as <-. simpl in FT. rewrite (RU FT). unfold read_union. rewrite EA. cbn [rbind].
    destruct MO as (_ & _ & MO). specialize (MO E5). unfold shape_of_union in FMS. simpl sh_members in FMS. rewrite (put_all_map _ _ _ MO) in FMS.
    rewrite (variants_like _ _ FMS). 2:{ intros k m J. apply in_map_iff in J. destruct J as (e & Q & _). injection Q as <- <-. unfold variant_member. simpl. intuition discriminate. }
    destruct (read_variants_back (ts_variants (td_spec td))) as (gs & EG & FB); [intros e J; apply RP; assumption|]. rewrite EG. cbn [types_part rbind]. rewrite strip_id.
    eexists. split; [reflexivity|]. split; [reflexivity|]. split; [exact FD|]. split; [apply sb_union; assumption|]. apply ANNO; assumption. }
  destruct (ts_type (td_spec td) =?s "Map") eqn:E6.
  { apply seqb_eq in E6. injection HK as <-. unfold shape_of_map in FT, FK, FV. simpl in FT, FK, FV. rewrite (RM FT). unfold read_map. rewrite FK, FV, strip_id.
    unfold read_bound, t_long. rewrite !FG by (simpl; intuition discriminate). simpl sh_traits. simpl mb_target. rewrite !reference_namespaced, !(reference_back ns HU) by apply RP.
    eexists. split; [reflexivity|]. split; [reflexivity|]. split; [exact FD|]. split; [apply sb_map; exact E6|]. apply NOANNO; rewrite E6; [vm_compute; intuition discriminate|discriminate]. }
  destruct (ts_type (td_spec td) =?s "UUID") eqn:E7; [|discriminate].
  apply seqb_eq in E7. injection HK as <-. simpl in FT. rewrite (RS FT). unfold read_string. rewrite strip_id. apply seqb_neq in NU as NU'. rewrite NU'.
  unfold t_text, read_sizes, t_map, t_arr. rewrite !FG by (simpl; intuition discriminate). simpl sh_traits.
  eexists. split; [reflexivity|]. split; [reflexivity|]. split; [exact FD|]. split; [apply sb_uuid; exact E7|]. apply NOANNO; rewrite E7; [vm_compute; intuition discriminate|discriminate].
Qed.
End Read.
