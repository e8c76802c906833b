(** What a model accepts after its JSON text has been loaded. *)
From Verif Require Import GoStr Outcome Value Schema Scalars Time Model SpecModel ModelFacts JsonAst SpecJson JsonFacts.

Section Back.
Context (f64 : decimal -> option decimal) (num : decimal -> decimal).
Notation sback := (spec_back f64 num ts_string).

(** ** Equal up to defaults *)
Inductive same_data : typespec -> typespec -> Prop :=
| sd ts ts' : ts_type ts' = ts_type ts -> ts_pattern ts' = ts_pattern ts -> ts_values ts' = ts_values ts ->
    ts_minsize ts' = ts_minsize ts -> ts_maxsize ts' = ts_maxsize ts -> ts_elements ts' = ts_elements ts ->
    ts_min ts' = ts_min ts -> ts_max ts' = ts_max ts -> ts_items ts' = ts_items ts -> ts_keys ts' = ts_keys ts ->
    ts_unit ts' = ts_unit ts -> ts_value ts' = ts_value ts ->
    Forall2 (fun f g : fielddef => fd_name g = fd_name f /\ fd_required g = fd_required f /\ same_data (fd_spec f) (fd_spec g)) (ts_fields ts) (ts_fields ts') ->
    same_data ts ts'.
Lemma same_data_sym ts : forall ts', same_data ts ts' -> same_data ts' ts.
Proof.
  induction ts as [ts IHf _] using typespec_ind'. intros ts' H. inversion H as [? ? E1 E2 E3 E4 E5 E6 E7 E8 E9 E10 E11 E12 F]; subst.
  constructor; try (symmetry; assumption). clear - F IHf. induction F as [|f g l l' (N & R & S) F IH]; constructor.
  - split; [symmetry; exact N|]. split; [symmetry; exact R|]. inversion IHf; subst. auto.
  - apply IH. inversion IHf; auto.
Qed.
Lemma back_same ts : forall ts', sback ts ts' -> spec_kept num ts -> same_data ts ts'.
Proof.
  induction ts as [ts IHf _] using typespec_ind'. intros ts' B K. inversion K as [? KV KL KF]; subst.
  inversion B as [t p vs vs' mns mxs fs fs' els mn mn' mx mx' it k vars vars' u w r B1 B2 B3 B4 B5]; subst ts ts'. cbn in KV, KL, KF, IHf.
  constructor; cbn; try reflexivity.
  - destruct B1 as [[E _] | [_ E]]; [congruence|exact E].
  - destruct B2 as [[-> ->] | (d & -> & _ & ->)]; [reflexivity|]. now rewrite KL by auto.
  - destruct B3 as [[-> ->] | (d & -> & _ & ->)]; [reflexivity|]. now rewrite KL by auto.
  - clear - B4 IHf KF. induction B4 as [|f g l l' (N & _ & _ & R & _ & S) F IH]; constructor.
    + inversion IHf; subst. split; [exact N|]. split; [exact R|]. apply H1; [exact S|]. apply KF. left. reflexivity.
    + inversion IHf; subst. apply IH; [assumption|]. intros x I. apply KF. right. exact I.
Qed.

Definition same_tables (sch sch' : schema) : Prop :=
  Forall2 (fun a b => td_name b = td_name a /\ same_data (td_spec a) (td_spec b)) (sc_types sch) (sc_types sch').
Lemma same_tables_sym sch sch' : same_tables sch sch' -> same_tables sch' sch.
Proof. unfold same_tables. induction 1 as [|a b l l' [N S] F IH]; constructor; auto. split; [auto|]. now apply same_data_sym. Qed.
Lemma same_data_builtin n : same_data (ts_of n) (ts_of n).
Proof. constructor; try reflexivity. constructor. Qed.
Lemma same_defines sch sch' n ts : same_tables sch sch' -> defines sch n ts -> exists ts', defines sch' n ts' /\ same_data ts ts'.
Proof.
  intros T (td & [[I ->] | [I E]] & <-).
  - exists (ts_of n). split; [exists (mkTD n "" [] (ts_of n)); split; [left; auto|reflexivity]|]. cbn. apply same_data_builtin.
  - unfold same_tables in T. subst n. enough (exists b, In b (sc_types sch') /\ td_name b = td_name td /\ same_data (td_spec td) (td_spec b)) as (b & Ib & Nb & Sb).
    { exists (td_spec b). split; [exists b; split; [right; auto|reflexivity]|exact Sb]. }
    induction T as [|a b l l' [N S] F IH]; [destruct I|]. destruct I as [-> |I].
    + exists b. split; [left; reflexivity|]. auto.
    + destruct (IH I) as (b' & J & N' & S'). exists b'. split; [right; exact J|auto].
Qed.
Lemma field_in (fs gs : list fielddef) (g : fielddef) :
  Forall2 (fun f g : fielddef => fd_name g = fd_name f /\ fd_required g = fd_required f /\ same_data (fd_spec f) (fd_spec g)) fs gs ->
  In g gs -> exists f, In f fs /\ fd_name g = fd_name f /\ fd_required g = fd_required f /\ same_data (fd_spec f) (fd_spec g).
Proof.
  induction 1 as [|f g' l l' P F IH]; [intros []|]. intros [-> |I]; [exists f; split; [left; reflexivity|exact P]|].
  destruct (IH I) as (f' & J & P'). exists f'. split; [right; exact J|exact P'].
Qed.
Lemma field_out (fs gs : list fielddef) (f : fielddef) :
  Forall2 (fun f g : fielddef => fd_name g = fd_name f /\ fd_required g = fd_required f /\ same_data (fd_spec f) (fd_spec g)) fs gs ->
  In f fs -> exists g, In g gs /\ fd_name g = fd_name f.
Proof.
  induction 1 as [|f' g' l l' P F IH]; [intros []|]. intros [-> |I]; [exists g'; split; [left; reflexivity|apply P]|].
  destruct (IH I) as (g & J & P'). exists g. split; [right; exact J|exact P'].
Qed.
Lemma accepts_same X sch sch' ts v : same_tables sch sch' -> accepts X sch ts v -> forall ts', same_data ts ts' -> accepts X sch' ts' v.
Proof.
  intros T. assert (D : forall n t, defines sch n t -> exists t', defines sch' n t' /\ same_data t t') by (intros; now apply same_defines with (sch := sch)).
  induction 1 as
    [ts t Hk | ts s t Hk Ht Hr | ts v s Hk Hs Hsz Hv Hp | ts l Hk Hc Hf IH
    | ts t1 l Hk Hn Hd Hx IH Hsz | ts l Hk Hn Hsz
    | ts t1 l Hk Hn Hd Hx IH Hsz | ts l Hk Hn Hsz
    | ts d Hk Hw | ts b Hk | ts b Hk | ts v s Hk Hs Hne He | ts s Hk | ts v s Hk Hs Hu
    | ts a u d t1 t2 Hk Hm Hl Hd Hd1 Ha1 IH1 Hd2 Ha2 IH2 | ts v Hk | ts v Hk | ts t1 v [Hk Hd] Ha IH];
    intros ts' SD; pose proof SD as SD0; inversion SD as [? ? E1 E2 E3 E4 E5 E6 E7 E8 E9 E10 E11 E12 F]; subst; rewrite <- E1 in Hk.
  - now apply ac_time.
  - eapply ac_time_text; eassumption.
  - eapply ac_string; [exact Hk|exact Hs| | |].
    + unfold sizes_ok. now rewrite E4, E5.
    + now rewrite E3.
    + now rewrite E2, E3.
  - apply ac_struct; [exact Hk| |].
    + destruct Hc as [C1 C2]. split.
      * intros k I. destruct (C1 k I) as (f & J & <-). destruct (field_out _ _ f F J) as (g & K & N). eauto.
      * intros g I R. destruct (field_in _ _ g F I) as (f & J & N & RR & _). rewrite N. apply C2; [exact J|congruence].
    + intros g x I J. destruct (field_in _ _ g F I) as (f & K & N & _ & S). rewrite N in J. exact (IH f x K J _ S).
  - destruct (D _ _ Hd) as (t1' & D' & S). eapply ac_array; [exact Hk|now rewrite E9|rewrite E9; exact D'| |unfold sizes_ok; now rewrite E4, E5].
    intros x I. exact (IH x I _ S).
  - apply ac_array_any; [exact Hk|now rewrite E9|unfold sizes_ok; now rewrite E4, E5].
  - destruct (D _ _ Hd) as (t1' & D' & S). eapply ac_map; [exact Hk|now rewrite E9|rewrite E9; exact D'| |unfold sizes_ok; now rewrite E4, E5].
    intros k x I. exact (IH k x I _ S).
  - apply ac_map_any; [exact Hk|now rewrite E9|unfold sizes_ok; now rewrite E4, E5].
  - apply ac_number; [exact Hk|now rewrite E7, E8].
  - now apply ac_bool.
  - now apply ac_pbool.
  - eapply ac_enum; [exact Hk|exact Hs|exact Hne|now rewrite E6].
  - now apply ac_uuid.
  - eapply ac_uuid_text; eassumption.
  - destruct (D _ _ Hd1) as (t1' & D1 & S1). destruct (D _ _ Hd2) as (t2' & D2 & S2).
    eapply ac_unit; [exact Hk|exact Hm|exact Hl|exact Hd|rewrite E12; exact D1|exact (IH1 _ S1)|rewrite E11; exact D2|exact (IH2 _ S2)].
  - now apply ac_bytes.
  - now apply ac_any.
  - destruct (D _ _ Hd) as (t1' & D' & S). eapply ac_ref; [split; [exact Hk|rewrite E1; exact D']|exact (IH _ S)].
Qed.

Lemma types_back sch sch' : schema_back f64 num ts_string sch sch' -> (forall td, In td (sc_types sch) -> spec_kept num (td_spec td)) -> same_tables sch sch'.
Proof.
  intros (_ & _ & _ & _ & _ & _ & _ & F & _) K. unfold same_tables.
  induction F as [|a b l l' (N & _ & _ & S) F IH]; constructor.
  - split; [exact N|]. apply back_same; [exact S|]. apply K. left. reflexivity.
  - apply IH. intros td I. apply K. right. exact I.
Qed.
Lemma loaded_data X m m' n v ctx : schema_fits (m_schema m) -> new_model (m_schema m) = Ok m ->
  (forall td, In td (sc_types (m_schema m)) -> spec_kept num (td_spec td)) ->
  load_model f64 num (pretty m) = Ok m' -> vwf v ->
  ((exists f, validate X m f ctx n v = Ok tt) <-> (exists f, validate X m' f ctx n v = Ok tt)).
Proof.
  intros FT M K L W. apply (load_pretty f64 num m m' FT) in L as (_ & sch' & B & M').
  pose proof (types_back _ _ B K) as T. rewrite (validate_iff X _ m M n v ctx W), (validate_iff X _ m' M' n v ctx W). split.
  - intros (ts & D & A). destruct (same_defines _ _ n ts T D) as (ts' & D' & S). exists ts'. split; [exact D'|]. exact (accepts_same X _ _ ts v T A _ S).
  - intros (ts & D & A). destruct (same_defines _ _ n ts (same_tables_sym _ _ T) D) as (ts' & D' & S). exists ts'. split; [exact D'|].
    exact (accepts_same X _ _ ts v (same_tables_sym _ _ T) A _ S).
Qed.

(** ** Values *)
Lemma value_kept_accepts X sch ts v : accepts X sch ts v -> value_kept v ->
  (forall t, leads sch ts t -> ts_type t <> "Timestamp" /\ ts_type t <> "UnitValue") ->
  forall w, value_back f64 ts_string v w -> accepts X sch ts w.
Proof.
  assert (TX : forall v0 w s, text_of v0 s -> value_back f64 ts_string v0 w -> w = VStr s).
  { intros v0 w s [-> | ->] B; inversion B; reflexivity. }
  assert (LEN : forall l l', Forall2 (value_back f64 ts_string) l l' -> length l' = length l).
  { induction 1; cbn; congruence. }
  assert (LENM : forall l l', Forall2 (fun a b : string * value => fst a = fst b /\ value_back f64 ts_string (snd a) (snd b)) l l' -> length l' = length l).
  { induction 1; cbn; congruence. }
  assert (KEYS : forall l l', Forall2 (fun a b : string * value => fst a = fst b /\ value_back f64 ts_string (snd a) (snd b)) l l' -> map fst l' = map fst l).
  { induction 1 as [|a b l l' [E _]]; cbn; congruence. }
  assert (INA : forall l l' y, Forall2 (value_back f64 ts_string) l l' -> In y l' -> exists x, In x l /\ value_back f64 ts_string x y).
  { induction 1 as [|a b l l' B F IH]; [intros []|]. intros [-> |I]; [exists a; split; [left; reflexivity|exact B]|].
    destruct (IH I) as (x & J & P). exists x. split; [right; exact J|exact P]. }
  assert (INM : forall l l' k y, Forall2 (fun a b : string * value => fst a = fst b /\ value_back f64 ts_string (snd a) (snd b)) l l' -> In (k, y) l' ->
    exists x, In (k, x) l /\ value_back f64 ts_string x y).
  { induction 1 as [|[ka a] b l l' [E B] F IH]; [intros []|]. cbn in E, B. intros [-> |I].
    - cbn in *. subst ka. exists a. split; [left; reflexivity|exact B].
    - destruct (IH I) as (x & J & P). exists x. split; [right; exact J|exact P]. }
  induction 1 as
    [ts t Hk | ts s t Hk Ht Hr | ts v s Hk Hs Hsz Hv Hp | ts l Hk Hc Hf IH
    | ts t1 l Hk Hn Hd Hx IH Hsz | ts l Hk Hn Hsz
    | ts t1 l Hk Hn Hd Hx IH Hsz | ts l Hk Hn Hsz
    | ts d Hk Hw | ts b Hk | ts b Hk | ts v s Hk Hs Hne He | ts s Hk | ts v s Hk Hs Hu
    | ts a u d t1 t2 Hk Hm Hl Hd Hd1 Ha1 IH1 Hd2 Ha2 IH2 | ts v Hk | ts v Hk | ts t1 v [Hk Hd] Ha IH];
    intros VK L w B.
  - inversion VK.
  - destruct (L ts (le_here _ _)) as [NT _]. congruence.
  - rewrite (TX _ _ _ Hs B). eapply ac_string; [exact Hk|left; reflexivity| | |]; assumption.
  - inversion B as [| | | | | | | | | | | | |? l' F]; subst. inversion VK as [| | | | | |? FV]; subst. rewrite Forall_forall in FV.
    apply ac_struct; [exact Hk|unfold closed_object; rewrite (KEYS _ _ F); exact Hc|].
    intros f y I J. destruct (INM _ _ _ _ F J) as (x & K & P).
    apply (IH f x I K (FV _ K)); [|exact P]. intros t LT. apply L. eapply le_field; eassumption.
  - inversion B as [| | | | | | | | | | | |? l' F|]; subst. inversion VK as [| | | | |? FV|]; subst. rewrite Forall_forall in FV.
    eapply ac_array; [exact Hk|exact Hn|exact Hd| |now rewrite (LEN _ _ F)].
    intros y J. destruct (INA _ _ _ F J) as (x & K & P). apply (IH x K (FV _ K)); [|exact P].
    intros t LT. apply L. eapply le_item; [rewrite Hk; left; reflexivity|exact Hn|exact Hd|exact LT].
  - inversion B as [| | | | | | | | | | | |? l' F|]; subst. apply ac_array_any; [exact Hk|exact Hn|now rewrite (LEN _ _ F)].
  - inversion B as [| | | | | | | | | | | | |? l' F]; subst. inversion VK as [| | | | | |? FV]; subst. rewrite Forall_forall in FV.
    eapply ac_map; [exact Hk|exact Hn|exact Hd| |now rewrite (LENM _ _ F)].
    intros k y J. destruct (INM _ _ _ _ F J) as (x & K & P). apply (IH k x K (FV _ K)); [|exact P].
    intros t LT. apply L. eapply le_item; [rewrite Hk; right; left; reflexivity|exact Hn|exact Hd|exact LT].
  - inversion B as [| | | | | | | | | | | | |? l' F]; subst. apply ac_map_any; [exact Hk|exact Hn|now rewrite (LENM _ _ F)].
  - inversion VK.
  - inversion B; subst. now apply ac_bool.
  - inversion B; subst. now apply ac_bool.
  - rewrite (TX _ _ _ Hs B). eapply ac_enum; [exact Hk|left; reflexivity|exact Hne|exact He].
  - inversion VK.
  - rewrite (TX _ _ _ Hs B). eapply ac_uuid_text; [exact Hk|left; reflexivity|exact Hu].
  - destruct (L ts (le_here _ _)) as [_ NT]. congruence.
  - now apply ac_bytes.
  - now apply ac_any.
  - eapply ac_ref; [split; eassumption|]. apply IH; [exact VK| |exact B]. intros t LT. apply L. eapply le_ref; [split; eassumption|exact LT].
Qed.
Lemma value_back_wf v : forall w, vwf v -> value_back f64 ts_string v w -> vwf w.
Proof.
  assert (LEAF : forall w, (forall l, w <> VArr l) -> (forall l, w <> VMap l) -> vwf w) by (intros; now apply wf_leaf).
  induction v using value_ind'; intros w W B; inversion B as [| | | | | | | | | | | |? l' F|? l' F]; subst; try (apply LEAF; discriminate).
  - inversion W as [v N _|? FW|]; [destruct (N l); reflexivity|]; subst. apply wf_arr. clear - H F FW. revert l' F.
    induction l as [|x l IH]; intros l' F; inversion F; subst; constructor; inversion H; inversion FW; subst; auto.
  - inversion W as [v _ N|? FW|? ND FW]; [destruct (N l); reflexivity|]; subst. apply wf_map.
    + assert (E : keys l' = keys l) by (clear - F; unfold keys; induction F as [|a b l l' [E _]]; cbn; congruence). now rewrite E.
    + clear - H F FW. revert l' F. induction l as [|x l IH]; intros l' F; inversion F as [|? ? ? ? [_ P]]; subst; constructor; inversion H; inversion FW; subst; auto.
Qed.
Lemma loaded_examples X m m' ctx : schema_fits (m_schema m) -> new_model (m_schema m) = Ok m ->
  (forall td, In td (sc_types (m_schema m)) -> spec_kept num (td_spec td)) ->
  load_model f64 num (pretty m) = Ok m' ->
  Forall2 (fun e e' => ex_target e' = ex_target e /\
    (forall n ts, vwf (ex_example e) -> value_kept (ex_example e) -> defines (m_schema m) n ts ->
     (forall t, leads (m_schema m) ts t -> ts_type t <> "Timestamp" /\ ts_type t <> "UnitValue") ->
     (exists f, validate X m f ctx n (ex_example e) = Ok tt) -> exists f, validate X m' f ctx n (ex_example e') = Ok tt))
   (sc_examples (m_schema m)) (sc_examples (m_schema m')).
Proof.
  intros FT M K L. apply (load_pretty f64 num m m' FT) in L as (_ & sch' & B & M').
  pose proof (types_back _ _ B K) as T. assert (MS : m_schema m' = sch') by (apply new_model_inv in M'; tauto).
  rewrite MS. destruct B as (_ & _ & _ & _ & _ & _ & _ & _ & BX & _).
  induction BX as [|e e' l l' (E1 & E2 & E3 & E4 & VB) F IH]; constructor; [|exact IH]. split; [exact E1|].
  intros n ts W VK D LT V. apply (validate_iff X _ m M n _ ctx W) in V as (ts0 & D0 & A).
  assert (ts0 = ts) by (apply (find_type_defines _ m M) in D as (td & F1 & <-); apply (find_type_defines _ m M) in D0 as (td0 & F2 & <-); congruence).
  subst ts0. apply (validate_iff X _ m' M' n _ ctx (value_back_wf _ _ W VB)).
  destruct (same_defines _ _ n ts T D) as (ts' & D' & S). exists ts'. split; [exact D'|].
  apply (accepts_same X _ _ ts _ T); [|exact S]. exact (value_kept_accepts X _ ts _ A VK LT _ VB).
Qed.

(** ** Schemas that come back as they are *)
Lemma plain_spec ts : spec_plain num ts -> sback ts ts.
Proof.
  induction ts as [ts IHf IHv] using typespec_ind'. intros P. inversion P as [? PV PL PF PW]; subst.
  rewrite Forall_forall in IHf, IHv. destruct ts as [t p vs mns mxs fs els mn mx it k vars u w r]. cbn in *.
  assert (LB : forall o, (forall d, o = Some d -> number d /\ num d = d) -> limit_back num o o).
  { intros [d|] H; [right|left; auto]. destruct (H d eq_refl) as [N E]. exists d. rewrite E. auto. }
  constructor.
  - right. auto.
  - apply LB. intros d E. apply PL. auto.
  - apply LB. intros d E. apply PL. auto.
  - assert (H : forall f : fielddef, In f fs -> fd_default f = VNil /\ sback (fd_spec f) (fd_spec f)).
    { intros f I. destruct (PF f I) as [D S]. split; [exact D|]. apply IHf; auto. }
    clear - H. induction fs as [|f fs IH]; constructor.
    + destruct (H f (or_introl eq_refl)) as [D S]. rewrite D. repeat split; auto. constructor.
    + apply IH. intros g I. apply H. right. exact I.
  - assert (H : forall f : variantdef, In f vars -> sback (uv_spec f) (uv_spec f)) by (intros f I; apply IHv; auto).
    clear - H. induction vars as [|f fs IH]; constructor; [repeat split; auto; apply H; left; reflexivity|]. apply IH. intros g I. apply H. right. exact I.
Qed.
Lemma plain_field f : field_plain num f -> field_back f64 num ts_string f f.
Proof. intros [D S]. unfold field_back. rewrite D. repeat split; auto; [constructor|apply plain_spec, S]. Qed.
Lemma Forall2_refl {A} (R : A -> A -> Prop) l : (forall x, In x l -> R x x) -> Forall2 R l l.
Proof. induction l as [|x l IH]; intros H; constructor; [apply H; left; reflexivity|apply IH; intros y I; apply H; right; exact I]. Qed.
Lemma plain_schema s : schema_plain num s -> schema_back f64 num ts_string s s.
Proof.
  intros (_ & EX & PT & PO & PH). unfold schema_back. repeat (split; [reflexivity|]). rewrite EX. split; [|split; [constructor|split]].
  - apply Forall2_refl. intros td I. repeat split. apply plain_spec, PT, I.
  - apply Forall2_refl. intros o I. destruct (PO o I) as [P1 P2]. repeat split; apply Forall2_refl.
    + intros f J. apply plain_field, P1, J.
    + intros x J. repeat split. apply plain_spec, P2, J.
  - apply Forall2_refl. intros h I. destruct (PH h I) as [P1 P2]. repeat split.
    + apply Forall2_refl. intros p J. repeat split; try apply (plain_field _ (P1 p J)).
    + destruct (h_expected h) as [e|] eqn:E; [|exact Logic.I]. repeat split. apply Forall2_refl. intros p J.
      repeat split; try apply (plain_field _ (P2 e p eq_refl J)).
Qed.
Lemma plain_loaded m : new_model (m_schema m) = Ok m -> schema_fits (m_schema m) -> schema_plain num (m_schema m) ->
  load_model f64 num (pretty m) = Ok m.
Proof.
  intros M F P. apply (load_pretty f64 num m m F). split; [apply P|]. exists (m_schema m). split; [apply plain_schema, P|exact M].
Qed.
End Back.
