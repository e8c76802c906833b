From Verif Require Import GoStr Outcome Value Schema Scalars Model Misc SpecMisc SpecModel SpecPV PVFacts ModelFacts MiscFacts Generator Golang SpecGen.

Section GO.
Context (sch : schema) (m : model) (Hm : new_model sch = Ok m).
Context (Hid : forall td, In td (sc_types sch) -> identifier (td_name td)).
Context (Hlow : forall td, In td (sc_types sch) -> ~ In (td_name td) go_predeclared).

Lemma go_find n td : find_type m n = Some td ->
  (In n builtin_names /\ td = mkTD n "" [] (ts_of n)) \/ (In td (sc_types sch) /\ td_name td = n).
Proof. intros H. apply (find_type_spec sch m Hm) in H. exact H. Qed.
Lemma builtin_identifier n : In n builtin_names -> identifier n.
Proof.
  intros H. apply is_symbol_iff. simpl in H. repeat (destruct H as [<-|H]; [reflexivity|]). destruct H.
Qed.
Lemma find_identifier n td : find_type m n = Some td -> identifier n /\ ~ In n go_predeclared.
Proof.
  intros H. destruct (go_find _ _ H) as [[B _]|[I <-]].
  - split; [apply builtin_identifier; exact B|]. intros L. simpl in B, L.
    repeat (destruct B as [<-|B]; [repeat (destruct L as [L|L]; [discriminate L|]); destruct L|]). destruct B.
  - split; [apply Hid; exact I|apply Hlow; exact I].
Qed.
Lemma identifier_smem n c : identifier n -> is_letter c = false -> is_digit c = false -> c <> "_"%char -> smem c n = false.
Proof.
  intros (a & r & -> & La & Hr) L D U. destruct (smem c (String a r)) eqn:E; [|reflexivity]. exfalso.
  assert (X : has_char c (String a r)).
  { assert (Z : ~ no_char c (String a r)) by (rewrite no_char_smem; congruence).
    clear -E. revert E. generalize (String a r). intros s. induction s as [|x s IH]; [discriminate|]. simpl.
    destruct (Ascii.eqb x c) eqn:Q; [intros _; apply ceqb_eq in Q; subst; exists "", s; reflexivity|].
    simpl. intros E. destruct (IH E) as (p & q & ->). exists (String x p), q. reflexivity. }
  destruct X as (p & q & X). destruct p as [|y p]; simpl in X.
  - injection X as -> _. apply is_letter_iff in La. congruence.
  - injection X as -> X. destruct (Hr c) as [H|[H|H]]; [exists p, q; exact X| | |congruence].
    + apply is_letter_iff in H. congruence.
    + apply is_digit_iff in H. congruence.
Qed.
Definition prims : list string := ["Int8"; "Int16"; "Int32"; "Int64"; "Float32"; "Float64"; "Bool"; "String"].
Definition ptrs : list string := ["Decimal"; "Timestamp"; "UnitValue"].

Inductive go_base (rt : bool) : string -> string -> Prop :=
| gb_prim n : In n prims -> go_base rt n (uncapitalize n)
| gb_ptr n : In n ptrs -> go_base rt n (if rt then "*sadl." +++ n else "*" +++ n)
| gb_struct n td : find_type m n = Some td -> ts_type (td_spec td) = "Struct" -> go_base rt n ("*" +++ n)
| gb_name n td : find_type m n = Some td -> ts_type (td_spec td) <> "Struct" -> ~ In n prims -> go_base rt n n.

Lemma native_base rt f ts n s : n <> "Array" -> n <> "Map" -> native_type m rt f ts n = Ok s -> go_base rt n s.
Proof.
  intros NA NM. destruct f as [|f]; [discriminate|]. cbn [native_type].
  destruct (str_mem n _) eqn:E1.
  - apply str_mem_In in E1. intros H. assert (G : go_uncapitalize n = Ok (uncapitalize n)).
    { destruct n; [simpl in E1; intuition discriminate|reflexivity]. }
    rewrite G in H. injection H as <-. apply gb_prim. exact E1.
  - destruct (str_mem n ["Decimal"; _; _]) eqn:E2.
    + apply str_mem_In in E2. intros H. injection H as <-. apply gb_ptr. exact E2.
    + destruct (n =?s "Array") eqn:E3; [apply seqb_eq in E3; congruence|]. destruct (n =?s "Map") eqn:E4; [apply seqb_eq in E4; congruence|].
      destruct (find_type m n) as [td|] eqn:F; [|discriminate]. intros H. injection H as <-.
      destruct (ts_type (td_spec td) =?s "Struct") eqn:T.
      * apply seqb_eq in T. eapply gb_struct; eassumption.
      * apply (gb_name rt n td); [exact F|intros X; apply seqb_eq in X; congruence|]. intros X. apply str_mem_In in X. unfold prims in X. congruence.
Qed.
Definition decode (s : string) : string :=
  if str_mem s go_predeclared then capitalize s
  else match s with
       | String c r => if Ascii.eqb c "*" then (if has_prefix "sadl." r then sdrop 5 r else r) else s
       | "" => ""
       end.
Lemma base_decode rt n s : go_base rt n s -> decode s = n.
Proof.
  intros [n' H|n' H|n' td F T|n' td F T U].
  - simpl in H. repeat (destruct H as [<-|H]; [reflexivity|]). destruct H.
  - simpl in H. repeat (destruct H as [<-|H]; [destruct rt; reflexivity|]). destruct H.
  - destruct (find_identifier _ _ F) as [I _]. unfold decode.
    replace (str_mem ("*" +++ n') go_predeclared) with false by reflexivity.
    cbn [append]. rewrite Ascii.eqb_refl. destruct (has_prefix "sadl." n') eqn:P; [|reflexivity].
    apply has_prefix_spec in P. destruct P as [r ->]. exfalso.
    apply (identifier_smem _ "."%char) in I; [discriminate| | |]; try reflexivity; discriminate.
  - destruct (find_identifier _ _ F) as [I L]. unfold decode.
    destruct (str_mem n' go_predeclared) eqn:E; [apply str_mem_In in E; contradiction|].
    destruct n' as [|c r]; [reflexivity|]. destruct (Ascii.eqb c "*") eqn:C; [|reflexivity]. exfalso.
    apply (identifier_smem _ "*"%char) in I; try reflexivity; try discriminate. simpl in I. rewrite C in I. discriminate.
Qed.
Lemma base_no_bracket rt n s : go_base rt n s -> smem "[" s = false /\ smem "]" s = false.
Proof.
  assert (Id : forall n' td, find_type m n' = Some td -> smem "[" n' = false /\ smem "]" n' = false).
  { intros n' td F. destruct (find_identifier _ _ F) as [I _].
    split; apply identifier_smem; try exact I; try reflexivity; discriminate. }
  intros [n' H|n' H|n' td F T|n' td F T U].
  - simpl in H. repeat (destruct H as [<-|H]; [split; reflexivity|]). destruct H.
  - simpl in H. repeat (destruct H as [<-|H]; [destruct rt; split; reflexivity|]). destruct H.
  - simpl. eapply Id. exact F.
  - eapply Id. exact F.
Qed.
Lemma find_empty : find_type m "" = None.
Proof.
  destruct (find_type m "") as [td|] eqn:F; [|reflexivity]. destruct (find_identifier _ _ F) as [(c & r & E & _) _]. discriminate.
Qed.
Lemma find_container n td : (n = "Array" \/ n = "Map") -> find_type m n = Some td -> ts_items (td_spec td) = "".
Proof.
  intros N F. destruct (go_find _ _ F) as [[B ->]|[I E]]; [reflexivity|].
  exfalso.
  assert (NB : ~ In (td_name td) builtin_names).
  { assert (C : collision_free sch) by (destruct (new_model_inv _ _ Hm) as (_ & _ & _ & C); exact C). apply C. exact I. }
  apply NB. rewrite E. destruct N as [-> | ->]; simpl; tauto.
Qed.
Lemma native_item rt f n td s : find_type m n = Some td -> native_type m rt f (td_spec td) n = Ok s -> go_base rt n s.
Proof.
  intros F H. assert (N : n <> "Array" /\ n <> "Map").
  { split; intros ->; (destruct f as [|f]; [discriminate|]); cbn [native_type] in H; simpl in H.
    - rewrite (find_container "Array" td (or_introl eq_refl) F), find_empty in H. discriminate.
    - rewrite (find_container "Map" td (or_intror eq_refl) F), find_empty in H. discriminate. }
  destruct N as [A M]. eapply native_base; eassumption.
Qed.
Inductive go_type (rt : bool) : typespec -> string -> string -> Prop :=
| gt_base ts n s : n <> "Array" -> n <> "Map" -> go_base rt n s -> go_type rt ts n s
| gt_array ts s : go_base rt (ts_items ts) s -> go_type rt ts "Array" ("[]" +++ s)
| gt_map ts k s : go_base rt (ts_keys ts) k -> go_base rt (ts_items ts) s -> go_type rt ts "Map" ("map[" +++ k +++ "]" +++ s).
Lemma native_go_type rt f ts n s : native_type m rt f ts n = Ok s -> go_type rt ts n s.
Proof.
  intros H. destruct (string_dec n "Array") as [->|A].
  - destruct f as [|f]; [discriminate|]. cbn [native_type] in H. simpl in H. destruct (find_type m (ts_items ts)) as [td|] eqn:F; [|discriminate].
    apply rbind_Ok in H. destruct H as (x & H & E). injection E as <-. apply (gt_array rt ts x). eapply native_item; eassumption.
  - destruct (string_dec n "Map") as [->|M].
    + destruct f as [|f]; [discriminate|]. cbn [native_type] in H. simpl in H. destruct (find_type m (ts_items ts)) as [it|] eqn:F; [|discriminate].
      destruct (find_type m (ts_keys ts)) as [kt|] eqn:G; [|discriminate].
      apply rbind_Ok in H. destruct H as (k & K & H). apply rbind_Ok in H. destruct H as (i & H & E). injection E as <-.
      apply (gt_map rt ts k i); eapply native_item; eassumption.
    + apply gt_base; [exact A|exact M|]. eapply native_base; eassumption.
Qed.
Lemma go_type_inj rt ts1 n1 ts2 n2 s : go_type rt ts1 n1 s -> go_type rt ts2 n2 s ->
  n1 = n2 /\ (n1 = "Array" -> ts_items ts1 = ts_items ts2) /\ (n1 = "Map" -> ts_keys ts1 = ts_keys ts2 /\ ts_items ts1 = ts_items ts2).
Proof.
  assert (B : forall n s c r, go_base rt n s -> s = c +++ String "[" r -> False).
  { intros n x c r G ->. apply base_no_bracket in G. rewrite smem_app in G. simpl in G. rewrite orb_true_r in G. destruct G. discriminate. }
  intros H1 H2. destruct H1 as [ts1 n1 s A1 M1 G1|ts1 s G1|ts1 k s K1 G1].
  - destruct H2 as [ts2 n2 s A2 M2 G2|ts2 s G2|ts2 k s K2 G2].
    + apply base_decode in G1, G2. split; [congruence|]. split; intros; congruence.
    + exfalso. apply (B n1 _ "" ("]" +++ s) G1). reflexivity.
    + exfalso. apply (B n1 _ "map" (k +++ "]" +++ s) G1). reflexivity.
  - inversion H2 as [ts' n' s' A2 M2 G2|ts' s' G2|ts' k' s' K2 G2]; subst.
    + exfalso. apply (B n2 _ "" ("]" +++ s) G2). reflexivity.
    + split; [reflexivity|]. apply base_decode in G1, G2. split; intros; [congruence|discriminate].
  - remember ("map[" +++ k +++ "]" +++ s) as t eqn:E. destruct H2 as [ts2 n2 s2 A2 M2 G2|ts2 s2 G2|ts2 k2 s2 K2 G2].
    + exfalso. apply (B n2 _ "map" (k +++ "]" +++ s) G2). rewrite E. reflexivity.
    + discriminate E.
    + assert (E' : k2 +++ String "]" s2 = k +++ String "]" s) by (simpl in E; injection E as E; exact E).
      assert (C : Some (k2, s2) = Some (k, s)).
      { rewrite <- (proj2 (cut_Some "]" (k2 +++ String "]" s2) k2 s2)) by (split; [reflexivity|eapply base_no_bracket; exact K2]).
        apply cut_Some. split; [exact E'|eapply base_no_bracket; exact K1]. }
      injection C as -> ->. apply base_decode in G1, G2, K1, K2. split; [reflexivity|]. split; intros; [discriminate|split; congruence].
Qed.
Lemma native_inj rt f1 f2 ts1 n1 ts2 n2 s : native_type m rt f1 ts1 n1 = Ok s -> native_type m rt f2 ts2 n2 = Ok s ->
  n1 = n2 /\ (n1 = "Array" -> ts_items ts1 = ts_items ts2) /\ (n1 = "Map" -> ts_keys ts1 = ts_keys ts2 /\ ts_items ts1 = ts_items ts2).
Proof. intros H1 H2. eapply go_type_inj; eapply native_go_type; eassumption. Qed.

(** two steps are enough *)
Lemma native_base_fuel rt f ts n : n <> "Array" -> n <> "Map" -> native_type m rt (S f) ts n <> OutOfFuel.
Proof.
  intros A M. cbn [native_type]. destruct (str_mem n _).
  - unfold go_uncapitalize. destruct n; discriminate.
  - destruct (str_mem n _); [discriminate|]. destruct (n =?s "Array") eqn:E; [apply seqb_eq in E; congruence|].
    destruct (n =?s "Map") eqn:E2; [apply seqb_eq in E2; congruence|]. destruct (find_type m n); discriminate.
Qed.
Lemma native_item_fuel rt f n td : find_type m n = Some td -> native_type m rt (S f) (td_spec td) n <> OutOfFuel.
Proof.
  intros F. destruct (string_dec n "Array") as [->|A]; [|destruct (string_dec n "Map") as [->|M]].
  - cbn [native_type]. simpl. rewrite (find_container "Array" td (or_introl eq_refl) F), find_empty. discriminate.
  - cbn [native_type]. simpl. rewrite (find_container "Map" td (or_intror eq_refl) F), find_empty. discriminate.
  - apply native_base_fuel; assumption.
Qed.
Lemma native_fuel rt f ts n : native_type m rt (S (S f)) ts n <> OutOfFuel.
Proof.
  destruct (string_dec n "Array") as [->|A]; [|destruct (string_dec n "Map") as [->|M]].
  - remember (S f) as g eqn:G. cbn [native_type]. simpl. destruct (find_type m (ts_items ts)) as [td|] eqn:F; [|discriminate].
    assert (X := native_item_fuel rt f _ _ F). rewrite <- G in X. destruct (native_type m rt g _ _); simpl; congruence.
  - remember (S f) as g eqn:G. cbn [native_type]. simpl. destruct (find_type m (ts_items ts)) as [td|] eqn:F; [|discriminate].
    destruct (find_type m (ts_keys ts)) as [kd|] eqn:K; [|discriminate].
    assert (X := native_item_fuel rt f _ _ F). assert (Y := native_item_fuel rt f _ _ K). rewrite <- G in X, Y.
    destruct (native_type m rt g (td_spec kd) _); simpl; try congruence. destruct (native_type m rt g (td_spec td) _); simpl; congruence.
  - apply native_base_fuel; assumption.
Qed.
End GO.
