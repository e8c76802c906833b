(** The data that the types of a generated Go file read and write back. *)
From Verif Require Import GoStr Outcome Value Schema Scalars Model Misc Generator Golang GoModel SpecTime SpecMisc SpecModel SpecPV SpecTrace SpecGo SpecGoData
  ModelFacts PVFacts TraceFacts GoModelFacts GoText GoNames.
From Coq Require Import Permutation Lia.

Lemma one_decl ds : NoDup (flat_map declared ds) -> forall d1 d2 x, In d1 ds -> In d2 ds -> In x (declared d1) -> In x (declared d2) -> d1 = d2.
Proof.
  induction ds as [|d ds IH]; [intros _ d1 d2 x []|]. cbn [flat_map]. intros N d1 d2 x I1 I2 J1 J2.
  assert (Q : forall e, In e ds -> In x (declared e) -> In x (declared d) -> False).
  { intros e Ie Je Jd. clear -N Ie Je Jd. induction (declared d) as [|y l IHl]; [exact Jd|]. cbn in N. inversion N as [|? ? N1 N2]; subst.
    destruct Jd as [-> |Jd]; [|exact (IHl N2 Jd)]. apply N1. apply in_or_app. right. apply in_flat_map. eauto. }
  assert (N' : NoDup (flat_map declared ds)) by (clear -N; induction (declared d) as [|y l IHl]; [exact N|cbn in N; inversion N; subst; auto]).
  destruct I1 as [<- |I1], I2 as [<- |I2]; [reflexivity|destruct (Q d2 I2 J2 J1)|destruct (Q d1 I1 J1 J2)|exact (IH N' d1 d2 x I1 I2 J1 J2)].
Qed.
Lemma mentions_refl t : type_mentions t t.
Proof. destruct t; now left. Qed.
Lemma mentions_trans t u x : type_mentions t u -> type_mentions u x -> type_mentions t x.
Proof.
  revert u x. induction t as [| | | |n|n|t IH|t IH|k IHk t IH]; intros u x [<- |H] K; try exact K; try destruct H.
  - right. exact (IH u x H K).
  - right. exact (IH u x H K).
  - right. left. exact (IHk u x H K).
  - right. right. exact (IH u x H K).
Qed.
Lemma dec_le_refl d : dec_le d d.
Proof. destruct d as [m e|[|]]; cbn; auto. exists e. lia. Qed.
Lemma same_number_refl d : same_number d d.
Proof. split; apply dec_le_refl. Qed.
Lemma table_first s l : In s l -> exists i, first_at s l i.
Proof.
  induction l as [|x l IH]; [intros []|]. intros I. destruct (string_dec x s) as [-> |N].
  - exists 0. split; [reflexivity|]. intros k L. lia.
  - destruct I as [I|I]; [contradiction|]. destruct (IH I) as (i & H1 & H2). exists (S i). split; [exact H1|]. intros [|k] L; cbn; [congruence|]. apply H2. lia.
Qed.

Section DATA.
Context (X : ext) (sch : schema) (m : model) (Hm : new_model sch = Ok m) (rt : bool) (service : string) (ds : list godecl).
Context (HF : file_shown sch rt service ds) (ND : NoDup (flat_map declared ds)).
Context (round : Z -> decimal -> decimal) (big : decimal -> decimal) (dec_text : decimal -> string) (dec_read : string -> option decimal).
Context (time_read : string -> option timestamp) (time_write : timestamp -> string).
Notation zeroes := (zero ds).
Notation rd := (reads ds round big dec_read time_read).
Notation wr := (writes ds dec_text time_write).
Notation fw := (fields_write ds dec_text time_write).
Notation keep := (kept sch rt round big time_read time_write).
Notation keep1 := (kept_here sch rt round big time_read time_write).
Definition RT (t : gotype) (j : value) : Prop :=
  (exists v j', rd t j v /\ wr t v j') /\ (forall v j', rd t j v -> wr t v j' -> same_data j j') /\ (forall v, rd t j v -> empty_value v -> empty_json j).
Definition used (t : gotype) : Prop := exists d, In d ds /\ decl_mentions d t.
Lemma used_part t u : type_mentions t u -> used t -> used u.
Proof.
  intros M (d & I & H). exists d. split; [exact I|]. destruct d; cbn in *; try exact H.
  - destruct H as (f & If & H). exists f. split; [exact If|]. exact (mentions_trans _ _ _ H M).
  - destruct H as (f & If & H). exists f. split; [exact If|]. exact (mentions_trans _ _ _ H M).
  - exact (mentions_trans _ _ _ H M).
Qed.
Lemma used_time : used (GNamed "Timestamp") -> In GdTimestamp ds.
Proof.
  destruct HF as (ms & acts & types & helpers & E & _ & _ & _ & HH & _ & _). intros (d & I & M). rewrite E in I |- *.
  right. rewrite app_assoc. apply in_or_app. right. apply HH. left. split; [reflexivity|].
  destruct I as [<- |I]; [destruct M|]. rewrite app_assoc in I. apply in_app_iff in I as [I|I]; [eauto|]. apply HH in I as [[-> _]|[-> _]]; destruct M.
Qed.
Lemma shown td : In td (sc_types sch) -> exists l, type_shown sch rt td l /\ (forall d, In d l -> In d ds).
Proof.
  intros I. destruct HF as (ms & acts & types & helpers & E & _ & _ & FT & _).
  assert (Q : exists l, In l types /\ type_shown sch rt td l).
  { clear -FT I. induction FT as [|a b l ls H F IH]; [destruct I|]. destruct I as [<- |I]; [exists b; split; [now left|exact H]|].
    destruct (IH I) as (l0 & J & T). exists l0. split; [now right|exact T]. }
  destruct Q as (l & J & T). exists l. split; [exact T|]. intros d Id. rewrite E. right. apply in_or_app. right. apply in_or_app. left. apply in_concat. eauto.
Qed.
Lemma keep_nonnil ts j : keep1 ts j -> j <> VNil.
Proof. intros K. destruct K; try discriminate. assumption. Qed.

(** *** named types *)
Lemma union_declares n tags fs : In n (declared (GdUnion n tags fs)).
Proof. cbn. right. apply in_or_app. right. now left. Qed.
Ltac other C := match goal with H : In ?d ds |- _ => let E := fresh "E" in assert (E := C _ H ltac:(first [apply union_declares|cbn; auto])); discriminate E end.
Lemma decl_same d1 d2 n : In d1 ds -> In d2 ds -> In n (declared d1) -> In n (declared d2) -> d1 = d2.
Proof. exact (one_decl ds ND d1 d2 n). Qed.
Lemma named_read D n j v : In D ds -> In n (declared D) -> rd (GNamed n) j v ->
  match D with
  | GdStruct _ _ | GdUnion _ _ _ | GdEnum _ _ => rd (GNamed n) j v
  | GdType _ t u => (t <> GNamed "Decimal" /\ rd t j v) \/ (t = GNamed "Decimal" /\ exists s d, j = VStr s /\ v = KDec d)
  | GdNumber _ t => rd t j v
  | _ => True
  end.
Proof.
  intros I J R.
  assert (C : forall d, In d ds -> In n (declared d) -> d = D) by (intros d Id Jd; exact (decl_same d D n Id I Jd J)).
  inversion R as [? ? NK Z| | | | | | | | | | |? ? ? ? Id TG F|? ? ? ? ? Id TG F|? ? Id|? ? ? ? Id F|? ? ? ? ? Id ND' R'|? ? ? ? Id R'|? ? ? Id Q|? Id|? ? Id Q| |? ? Id Q|]; subst.
  - destruct NK as (d & Id & K). destruct d; try contradiction; subst.
    + specialize (C _ Id (or_introl eq_refl)). subst D. exact R.
    + specialize (C _ Id (union_declares _ _ _)). subst D. exact R.
  - specialize (C _ Id (or_introl eq_refl)). subst D. exact R.
  - specialize (C _ Id (union_declares _ _ _)). subst D. exact R.
  - specialize (C _ Id (or_introl eq_refl)). subst D. exact R.
  - specialize (C _ Id (or_introl eq_refl)). subst D. exact R.
  - specialize (C _ Id (or_introl eq_refl)). subst D. left. auto.
  - specialize (C _ Id (or_introl eq_refl)). subst D. exact R'.
  - specialize (C _ Id (or_introl eq_refl)). subst D. right. eauto.
  - specialize (C _ Id ltac:(cbn; auto)). subst D. exact Logic.I.
  - specialize (C _ Id ltac:(cbn; auto)). subst D. exact Logic.I.
  - specialize (C _ Id ltac:(cbn; auto)). subst D. exact Logic.I.
Qed.
Lemma named_write D n j v : In D ds -> In n (declared D) -> wr (GNamed n) v j ->
  match D with
  | GdType _ t u => (v = KNil /\ j = VNil) \/ (t <> GNamed "Decimal" /\ wr t v j)
  | GdNumber _ t => (v = KNil /\ j = VNil) \/ wr t v j
  | GdStruct _ fs => (v = KNil /\ j = VNil) \/ exists vs l, v = KRec vs /\ j = VMap l /\ fw fs vs l
  | GdEnum _ es => (v = KNil /\ j = VNil) \/ exists i s, v = KEnum i /\ j = VStr s /\ nth_error ("" :: map snd es) i = Some s
  | _ => True
  end.
Proof.
  intros I J W.
  assert (C : forall d, In d ds -> In n (declared d) -> d = D) by (intros d Id Jd; exact (decl_same d D n Id I Jd J)).
  inversion W; subst.
  - destruct D; auto.
  - specialize (C _ H0 (or_introl eq_refl)). subst D. right. eauto.
  - specialize (C _ H0 (union_declares _ _ _)). subst D. exact Logic.I.
  - specialize (C _ H0 (or_introl eq_refl)). subst D. right. eauto.
  - specialize (C _ H0 (or_introl eq_refl)). subst D. right. auto.
  - specialize (C _ H0 (or_introl eq_refl)). subst D. right. auto.
  - specialize (C _ H0 ltac:(cbn; auto)). subst D. exact Logic.I.
  - specialize (C _ H0 ltac:(cbn; auto)). subst D. exact Logic.I.
Qed.
Lemma RT_type n t u j : In (GdType n t u) ds -> t <> GNamed "Decimal" -> RT t j -> RT (GNamed n) j.
Proof.
  intros I N ((v & j' & R & W) & S & Z). split; [|split].
  - exists v, j'. split; [eapply rd_type; eassumption|eapply wt_type; eassumption].
  - intros v0 j0 R0 W0. apply (named_read _ n _ _ I (or_introl eq_refl)) in R0. destruct R0 as [[_ R0]|[E _]]; [|contradiction].
    apply (named_write _ n _ _ I (or_introl eq_refl)) in W0. destruct W0 as [[-> ->]|[_ W0]]; [|eauto]. apply (S _ _ R0). constructor.
  - intros v0 R0 E0. apply (named_read _ n _ _ I (or_introl eq_refl)) in R0. destruct R0 as [[_ R0]|[E _]]; [|contradiction]. eauto.
Qed.
Lemma RT_number n t j : In (GdNumber n t) ds -> RT t j -> RT (GNamed n) j.
Proof.
  intros I ((v & j' & R & W) & S & Z). split; [|split].
  - exists v, j'. split; [eapply rd_number; eassumption|eapply wt_number; eassumption].
  - intros v0 j0 R0 W0. apply (named_read _ n _ _ I (or_introl eq_refl)) in R0.
    apply (named_write _ n _ _ I (or_introl eq_refl)) in W0. destruct W0 as [[-> ->]|W0]; [|eauto]. apply (S _ _ R0). constructor.
  - intros v0 R0 E0. apply (named_read _ n _ _ I (or_introl eq_refl)) in R0. eauto.
Qed.
Lemma RT_ptr t j : j <> VNil -> RT t j -> RT (GPtr t) j.
Proof.
  intros N ((v & j' & R & W) & S & Z). split; [|split].
  - exists (KPtr v), j'. split; constructor; assumption.
  - intros v0 j0 R0 W0. inversion R0; subst; [contradiction H|contradiction|]. inversion W0; subst. eauto.
  - intros v0 R0 E0. inversion R0; subst; [contradiction H|contradiction|]. destruct E0.
Qed.
Lemma ptr_nonempty t j v : j <> VNil -> rd (GPtr t) j v -> ~ empty_value v.
Proof. intros N R E. inversion R; subst; [contradiction H|contradiction|]. destruct E. Qed.

(** *** scalars *)
Lemma RT_bool b : RT GBool (VBool b).
Proof.
  split; [|split].
  - exists (KBool b), (VBool b). split; constructor.
  - intros v j' R W. inversion R; subst. inversion W; subst. constructor.
  - intros v R E. inversion R; subst. exact E.
Qed.
Lemma RT_string s : RT GString (VStr s).
Proof.
  split; [|split].
  - exists (KStr s), (VStr s). split; constructor.
  - intros v j' R W. inversion R; subst. inversion W; subst. constructor.
  - intros v R E. inversion R; subst. exact E.
Qed.
Lemma RT_int bits d lo hi : whole_in d lo hi -> (forall z, (lo <= z <= hi)%Z -> int_fits bits z) -> RT (GInt bits) (VDec d).
Proof.
  intros (z & B & L1 & L2) H. split; [|split].
  - exists (KInt z), (VDec (DFin z 0)). split; [|constructor]. constructor; [split; assumption|auto].
  - intros v j' R W. inversion R; subst. inversion W; subst. constructor. assumption.
  - intros v R E. inversion R; subst. cbn in E. subst. assumption.
Qed.
Lemma RT_float bits d : round bits d = d -> RT (GFloat bits) (VDec d).
Proof.
  intros Rd. split; [|split].
  - exists (KFloat d), (VDec d). split; [|constructor]. rewrite <- Rd at 2. constructor.
  - intros v j' R W. inversion R; subst. inversion W; subst. rewrite Rd. constructor. apply same_number_refl.
  - intros v R E. inversion R; subst. cbn in E. rewrite Rd in E. exact E.
Qed.
Lemma RT_libdec d : big d = d -> RT (GLib "Decimal") (VDec d).
Proof.
  intros B. split; [|split].
  - exists (KDec d), (VDec d). split; [|constructor]. rewrite <- B at 2. constructor.
  - intros v j' R W. inversion R; subst. inversion W; subst. rewrite B. constructor. apply same_number_refl.
  - intros v R E. inversion R; subst. destruct E.
Qed.
Lemma RT_libtime s t : time_read s = Some t -> time_write t = s -> RT (GLib "Timestamp") (VStr s).
Proof.
  intros A B. split; [|split].
  - exists (KTime t), (VStr (time_write t)). split; constructor. exact A.
  - intros v j' R W. inversion R; subst. inversion W; subst. rewrite A in H0. injection H0 as ->. constructor.
  - intros v R E. inversion R; subst. destruct E.
Qed.
Lemma RT_time s t : In GdTimestamp ds -> time_read s = Some t -> time_write t = s -> RT (GNamed "Timestamp") (VStr s).
Proof.
  intros I A B.
  assert (C : forall d, In d ds -> In "Timestamp" (declared d) -> d = GdTimestamp) by (intros d Id Jd; apply (decl_same d GdTimestamp "Timestamp" Id I Jd); cbn; auto).
  assert (R1 : forall v, rd (GNamed "Timestamp") (VStr s) v -> v = KTime t).
  { intros v R. inversion R; subst; try (other C). congruence. }
  split; [|split].
  - exists (KTime t), (VStr (time_write t)). split; constructor; assumption.
  - intros v j' R W. apply R1 in R. subst v. inversion W; subst; try (other C). constructor.
  - intros v R E. apply R1 in R. subst v. destruct E.
Qed.
Lemma RT_slice t l : Forall (RT t) l -> RT (GSlice t) (VArr l).
Proof.
  intros F. split; [|split].
  - assert (Q : exists vs l', Forall2 (rd t) l vs /\ Forall2 (wr t) vs l').
    { induction F as [|j l ((v & j' & R & W) & _) F (vs & l' & A & B)]; [exists [], []; split; constructor|]. exists (v :: vs), (j' :: l'). split; constructor; assumption. }
    destruct Q as (vs & l' & A & B). exists (KSlice vs), (VArr l'). split; constructor; assumption.
  - intros v j' R W. inversion R; subst. inversion W; subst. constructor. clear R W.
    match goal with A : Forall2 _ l ?vs, B : Forall2 _ ?vs ?l0 |- _ => revert vs l0 A B end.
    induction F as [|j l (_ & S & _) F IH]; intros vs l0 A B; inversion A; subst; inversion B; subst; constructor; eauto.
  - intros v R E. inversion R; subst. cbn in E. subst. match goal with A : Forall2 _ l [] |- _ => inversion A end. reflexivity.
Qed.
Lemma RT_map k t l : string_kind ds k -> NoDup (map fst l) -> Forall (fun x => RT t (snd x)) l -> RT (GMap k t) (VMap l).
Proof.
  intros SK N F. split; [|split].
  - assert (Q : exists vs l', Forall2 (fun (j : string * value) (v : string * goval) => fst j = fst v /\ rd t (snd j) (snd v)) l vs
                              /\ Forall2 (fun (v : string * goval) (j : string * value) => fst v = fst j /\ wr t (snd v) (snd j)) vs l').
    { clear N. induction F as [|j l ((v & j' & R & W) & _) F (vs & l' & A & B)]; [exists [], []; split; constructor|].
      exists ((fst j, v) :: vs), ((fst j, j') :: l'). split; constructor; auto. }
    destruct Q as (vs & l' & A & B). exists (KMap vs), (VMap l'). split; [constructor; assumption|econstructor; [eassumption|reflexivity]].
  - intros v j' R W. inversion R as [| | | | | | | | | |? ? ? vs SK' H3| | | | | | | | | | | |]; subst. inversion W as [| | | | | | |? ? ? l0 l1 H2 H4| | | | | | | | |]; subst. clear R W.
    assert (Q : Forall2 (fun x y : string * value => fst x = fst y /\ same_data (snd x) (snd y)) l l0).
    { clear -F H3 H2. revert vs l0 H3 H2. induction F as [|j l (_ & S & _) F IH]; intros vs l0 A B; inversion A as [|? ? ? ? [E1 R1]]; subst; inversion B as [|? ? ? ? [E2 W2]]; subst; constructor; eauto.
      split; [congruence|eauto]. }
    clear -Q H4. constructor.
    + rewrite <- (Permutation_length H4). clear H4. induction Q; cbn; congruence.
    + intros k x I. assert (E : exists x', In (k, x') l0 /\ same_data x x').
      { clear -Q I. induction Q as [|[a b] [c d] l l0 [E S] Q IH]; [destruct I|]. cbn in E, S. destruct I as [I|I].
        - injection I as -> ->. subst c. exists d. split; [now left|exact S].
        - destruct (IH I) as (x' & J & S'). exists x'. split; [now right|exact S']. }
      destruct E as (x' & J & S). exists x'. split; [exact (Permutation_in _ H4 J)|exact S].
  - intros v R E. inversion R; subst. cbn in E. subst. match goal with A : Forall2 _ l [] |- _ => inversion A end. reflexivity.
Qed.
Lemma RT_enum n es s : In (GdEnum n es) ds -> In s (map snd es) -> RT (GNamed n) (VStr s).
Proof.
  intros I J.
  assert (R1 : forall v, rd (GNamed n) (VStr s) v -> exists i, v = KEnum i /\ nth_error ("" :: map snd es) i = Some s).
  { intros v R. assert (C : forall d, In d ds -> In n (declared d) -> d = GdEnum n es) by (intros d Id Jd; apply (decl_same d (GdEnum n es) n Id I Jd); cbn; auto).
    inversion R; subst; try (other C). match goal with A : In (GdEnum n ?l) ds, B : first_at s _ ?i |- _ => exists i; assert (E := C _ A (or_introl eq_refl)); injection E as ->; exact (conj eq_refl (proj1 B)) end. }
  split; [|split].
  - destruct (table_first s ("" :: map snd es)) as (i & F); [now right|]. exists (KEnum i), (VStr s). split; [eapply rd_enum; eassumption|eapply wt_enum; [exact I|exact (proj1 F)]].
  - intros v j' R W. destruct (R1 v R) as (i & -> & E).
    apply (named_write _ n _ _ I (or_introl eq_refl)) in W. destruct W as [[W _]|(i' & s' & E' & -> & W)]; [discriminate|]. injection E' as <-.
    rewrite E in W. injection W as ->. constructor.
  - intros v R E. destruct (R1 v R) as (i & -> & F). cbn in E. subst i. cbn in F. injection F as <-. reflexivity.
Qed.

(** *** structs *)
Section STRUCT.
Context (l : list (string * value)).
Definition rd_field (g : gofield) (v : goval) : Prop :=
  (exported (gf_name g) /\ exists x, In (gf_json g, x) l /\ rd (gf_type g) x v)
  \/ ((~ exported (gf_name g) \/ ~ In (gf_json g) (map fst l)) /\ zeroes (gf_type g) v).
Record field_fine (f : fielddef) (g : gofield) : Prop := {
  ff_json : gf_json g = fd_name f;
  ff_omit : gf_omit g = negb (fd_required f);
  ff_exp : exported (gf_name g);
  ff_there : forall x, In (fd_name f, x) l -> RT (gf_type g) x;
  ff_shows : forall x v, In (fd_name f, x) l -> fd_required f = false -> rd (gf_type g) x v -> ~ empty_value v;
  ff_must : fd_required f = true -> In (fd_name f) (map fst l);
  ff_zero : fd_required f = false -> (exists v, zeroes (gf_type g) v) /\ forall v, zeroes (gf_type g) v -> empty_value v }.
Lemma field_reads f g : field_fine f g -> exists v, rd_field g v /\ (left_out g v \/ (~ left_out g v /\ exists j, wr (gf_type g) v j)).
Proof.
  intros [J O E T S M Z]. destruct (in_dec string_dec (fd_name f) (map fst l)) as [I|I].
  - apply in_map_iff in I as ([k x] & K & I). cbn in K. subst k. destruct (T x I) as ((v & j & R & W) & _). exists v.
    split; [left; split; [exact E|]; exists x; rewrite J; auto|]. right. split; [|eauto]. intros [L|[L1 L2]]; [contradiction|].
    rewrite O in L1. destruct (fd_required f) eqn:Q; [discriminate|]. exact (S x v I eq_refl R L2).
  - destruct (fd_required f) eqn:Q; [destruct (I (M eq_refl))|]. destruct (Z eq_refl) as [[v V] Ze]. exists v.
    split; [right; split; [right; rewrite J; exact I|exact V]|]. left. right. split; [rewrite O; reflexivity|auto].
Qed.
Lemma fields_exist fs gs : Forall2 field_fine fs gs -> exists vs l', Forall2 rd_field gs vs /\ fw gs vs l'.
Proof.
  induction 1 as [|f g fs gs F _ (vs & l' & A & B)]; [exists [], []; split; constructor|].
  destruct (field_reads f g F) as (v & R & [L|[L (j & W)]]).
  - exists (v :: vs), l'. split; constructor; assumption.
  - exists (v :: vs), ((gf_json g, j) :: l'). split; constructor; assumption.
Qed.
Lemma in_fst {A B} (a : A) (b : B) xs : In (a, b) xs -> In a (map fst xs).
Proof. intros I. exact (in_map fst _ _ I). Qed.
Lemma key_one (k : string) (x y : value) xs : NoDup (map fst xs) -> In (k, x) xs -> In (k, y) xs -> x = y.
Proof.
  induction xs as [|[a b] xs IH]; [intros _ []|]. cbn. intros N I J. inversion N as [|? ? N1 N2]; subst.
  destruct I as [I|I], J as [J|J]; [congruence| | |exact (IH N2 I J)].
  - injection I as -> ->. destruct (N1 (in_fst _ _ _ J)).
  - injection J as -> ->. destruct (N1 (in_fst _ _ _ I)).
Qed.
Lemma fields_same fs gs vs l' : NoDup (map fst l) -> NoDup (map (fun f : fielddef => fd_name f) fs) -> Forall2 field_fine fs gs -> Forall2 rd_field gs vs -> fw gs vs l' ->
  (forall f x, In f fs -> In (fd_name f, x) l -> exists x', In (fd_name f, x') l' /\ same_data x x')
  /\ (forall k, In k (map fst l') -> In k (map fst l) /\ In k (map (fun f : fielddef => fd_name f) fs))
  /\ NoDup (map fst l').
Proof.
  intros NL. intros NF F. revert vs l'. induction F as [|f g fs gs FF F IH]; intros vs l' R W.
  - inversion R; subst. inversion W; subst. split; [intros f x []|]. split; [intros k []|constructor].
  - cbn in NF. inversion NF as [|? ? NF1 NF2]; subst. inversion R as [|? v ? vs' Rv Rs]; subst. destruct FF as [J O E T S M Z].
    assert (ZZ : ~ In (fd_name f) (map fst l) -> left_out g v).
    { intros I. destruct Rv as [[_ (x & I' & _)]|[_ V]]; [rewrite J in I'; destruct (I (in_fst _ _ _ I'))|].
      destruct (fd_required f) eqn:Q; [destruct (I (M eq_refl))|]. right. split; [rewrite O; reflexivity|exact (proj2 (Z eq_refl) v V)]. }
    assert (YY : forall x, In (fd_name f, x) l -> rd (gf_type g) x v /\ ~ left_out g v).
    { intros x I. destruct Rv as [[_ (x' & I' & Rx)]|[[V|V] _]]; [|contradiction|rewrite J in V; destruct (V (in_fst _ _ _ I))].
      rewrite J in I'. assert (x' = x) as -> by exact (key_one _ _ _ _ NL I' I). split; [exact Rx|]. intros [L|[L1 L2]]; [contradiction|].
      rewrite O in L1. destruct (fd_required f) eqn:Q; [discriminate|]. exact (S x v I eq_refl Rx L2). }
    inversion W as [|? ? ? ? ? L W'|? ? ? ? l0 j L Wj W']; subst.
    + destruct (IH NF2 _ _ Rs W') as (A & B & C). split; [|split; [|exact C]].
      * intros f0 x [<- |I0] I; [destruct (proj2 (YY x I) L)|exact (A f0 x I0 I)].
      * intros k I. destruct (B k I). split; [assumption|now right].
    + destruct (IH NF2 _ _ Rs W') as (A & B & C). split; [|split].
      * intros f0 x [<- |I0] I.
        { exists j. split; [left; rewrite J; reflexivity|]. exact (proj1 (proj2 (T x I)) v j (proj1 (YY x I)) Wj). }
        { destruct (A f0 x I0 I) as (x' & I' & Sx). exists x'. split; [now right|exact Sx]. }
      * intros k [<- |I]; cbn [fst]; [|destruct (B k I); split; [assumption|now right]]. rewrite J. split; [|now left].
        destruct (in_dec string_dec (fd_name f) (map fst l)) as [I|I]; [exact I|destruct (L (ZZ I))].
      * cbn. constructor; [|exact C]. rewrite J. intros I. exact (NF1 (proj2 (B _ I))).
Qed.
Lemma RT_struct n fs gs : In (GdStruct n gs) ds -> tags_ok gs -> NoDup (map fst l) -> NoDup (map (fun f : fielddef => fd_name f) fs) ->
  (forall k, In k (map fst l) -> exists f : fielddef, In f fs /\ fd_name f = k) -> Forall2 field_fine fs gs -> RT (GNamed n) (VMap l).
Proof.
  intros I TG NL NF CL F.
  assert (R1 : forall v, rd (GNamed n) (VMap l) v -> exists vs, v = KRec vs /\ Forall2 rd_field gs vs).
  { intros v R. assert (C : forall d, In d ds -> In n (declared d) -> d = GdStruct n gs) by (intros d Id Jd; apply (decl_same d (GdStruct n gs) n Id I Jd); cbn; auto).
    inversion R; subst; try (other C). match goal with A : In (GdStruct n ?l) ds |- _ => assert (E := C _ A (or_introl eq_refl)); injection E as -> end. eauto. }
  split; [|split].
  - destruct (fields_exist fs gs F) as (vs & l' & A & B). exists (KRec vs), (VMap l'). split; [eapply rd_struct; eassumption|eapply wt_struct; eassumption].
  - intros v j' R W. destruct (R1 v R) as (vs & -> & A). apply (named_write _ n _ _ I (or_introl eq_refl)) in W.
    destruct W as [[W _]|(vs' & l' & E & -> & W)]; [discriminate|]. injection E as <-.
    destruct (fields_same fs gs vs l' NL NF F A W) as (P & Q & N').
    assert (KK : forall k, In k (map fst l) <-> In k (map fst l')).
    { intros k. split; [|intros Ik; exact (proj1 (Q k Ik))]. intros Ik. destruct (CL k Ik) as (f & If & <-). apply in_map_iff in Ik as ([k x] & K & Ik). cbn in K. subst k.
      destruct (P f x If Ik) as (x' & I' & _). exact (in_fst _ _ _ I'). }
    constructor.
    + rewrite <- (map_length fst l), <- (map_length fst l'). apply Permutation_length. apply NoDup_Permutation; assumption.
    + intros k x Ik. destruct (CL k (in_fst _ _ _ Ik)) as (f & If & <-). exact (P f x If Ik).
  - intros v R E. destruct (R1 v R) as (vs & -> & _). destruct E.
Qed.
End STRUCT.

(** *** uses of types *)
Lemma names_free td : In td (sc_types sch) -> ~ In (td_name td) builtin_names.
Proof. destruct (new_model_inv _ _ Hm) as (_ & _ & _ & _ & B & _). apply B. Qed.
Lemma user_type n ts' : ~ In n builtin_names -> defines sch n ts' -> exists td, In td (sc_types sch) /\ td_name td = n /\ td_spec td = ts'.
Proof. intros N (td & [[I _]|[I E]] & S); [contradiction|eauto]. Qed.
Lemma plain_user n : plain_use n -> ~ In n not_go -> ~ In n builtin_names.
Proof. intros (A & B & C & D) N I. cbn in A, B, N, I. intuition. Qed.
Lemma builtin_def n ts' : In n builtin_names -> defines sch n ts' -> ts' = ts_of n.
Proof.
  intros I (td & [[_ ->]|[J E]] & S); [symmetry; exact S|]. destruct (names_free td J). rewrite E. exact I.
Qed.
Lemma user_kind n : ~ In n builtin_names -> ~ In n kinds.
Proof. intros N I. apply N. cbn in I |- *. intuition. Qed.
Lemma zero_named n D v : In D ds -> In n (declared D) -> zeroes (GNamed n) v ->
  match D with
  | GdType _ t _ | GdNumber _ t => zeroes t v
  | GdEnum _ _ => v = KEnum 0
  | _ => True
  end.
Proof.
  intros I J Z. assert (C : forall d, In d ds -> In n (declared d) -> d = D) by (intros d Id Jd; exact (decl_same d D n Id I Jd J)).
  inversion Z; subst.
  - specialize (C _ H0 (or_introl eq_refl)). subst D. exact Logic.I.
  - specialize (C _ H0 (union_declares _ _ _)). subst D. exact Logic.I.
  - specialize (C _ H0 (or_introl eq_refl)). subst D. reflexivity.
  - specialize (C _ H0 (or_introl eq_refl)). subst D. assumption.
  - specialize (C _ H0 (or_introl eq_refl)). subst D. assumption.
  - match goal with H : In GdDecimal ds |- _ => specialize (C _ H (or_intror (or_introl eq_refl))) end. subst D. exact Logic.I.
Qed.
Lemma basic_zero n t : In (n, t) go_basic -> (exists v, zeroes t v) /\ forall v, zeroes t v -> empty_value v.
Proof.
  intros I. cbn in I. repeat (destruct I as [I|I]; [injection I as <- <-; split; [eexists; constructor|intros v Z; inversion Z; subst; cbn; first [reflexivity|apply same_number_refl]]|]).
  destruct I.
Qed.
Lemma use_zero ts t : go_use sch rt ts (ts_type ts) t -> ~ In (ts_type ts) not_go -> ~ has_kind sch ts "Union" -> ~ has_kind sch ts "Decimal" ->
  (exists v, zeroes t v) /\ forall v, zeroes t v -> empty_value v.
Proof.
  intros U NG NU NDc. remember (ts_type ts) as n eqn:En. destruct U as [ts n t I|ts n I|ts ti t D U|ts tk k ti t K U D V|ts n td P D T|ts n td P D T].
  - eapply basic_zero; exact I.
  - split; [eexists; constructor|intros v Z; inversion Z; subst; exact Logic.I].
  - split; [eexists; constructor|intros v Z; inversion Z; subst; exact Logic.I].
  - split; [eexists; constructor|intros v Z; inversion Z; subst; exact Logic.I].
  - split; [eexists; constructor|intros v Z; inversion Z; subst; exact Logic.I].
  - pose proof (plain_user n P NG) as NB.
    assert (RF : refers sch ts td) by (split; [rewrite <- En; exact (user_kind n NB)|rewrite <- En; exact D]).
    destruct (user_type n td NB D) as (t0 & It & <- & <-). destruct (shown t0 It) as (l & Sh & Sub).
    destruct Sh as [gs es Kd F Er|tags gs es Kd L F Er|el Kd F|Kd|Kd|Kd|t Kd U|k t Kd U V|t N1 N2 Kd].
    + contradiction.
    + destruct NU. exists (td_spec t0). auto.
    + assert (I : In (GdEnum (td_name t0) el) ds) by (apply Sub; cbn; auto). split; [eexists; eapply ze_enum; exact I|].
      intros v Z. apply (zero_named _ _ _ I (or_introl eq_refl)) in Z. cbn in Z. subst v. reflexivity.
    + assert (I : In (GdType (td_name t0) GString false) ds) by (apply Sub; cbn; auto). split; [eexists; eapply ze_type; [exact I|constructor]|].
      intros v Z. apply (zero_named _ _ _ I (or_introl eq_refl)) in Z. inversion Z; subst. reflexivity.
    + assert (I : In (GdType (td_name t0) GString true) ds) by (apply Sub; cbn; auto). split; [eexists; eapply ze_type; [exact I|constructor]|].
      intros v Z. apply (zero_named _ _ _ I (or_introl eq_refl)) in Z. inversion Z; subst. reflexivity.
    + destruct NDc. exists (td_spec t0). auto.
    + assert (I : In (GdType (td_name t0) (GSlice t) false) ds) by (apply Sub; cbn; auto). split; [eexists; eapply ze_type; [exact I|constructor]|].
      intros v Z. apply (zero_named _ _ _ I (or_introl eq_refl)) in Z. inversion Z; subst. exact Logic.I.
    + assert (I : In (GdType (td_name t0) (GMap k t) false) ds) by (apply Sub; cbn; auto). split; [eexists; eapply ze_type; [exact I|constructor]|].
      intros v Z. apply (zero_named _ _ _ I (or_introl eq_refl)) in Z. inversion Z; subst. exact Logic.I.
    + assert (I : In (GdNumber (td_name t0) t) ds) by (apply Sub; cbn; auto). destruct (basic_zero _ _ Kd) as [[v V] Ze]. split; [exists v; eapply ze_number; eassumption|].
      intros w Z. apply (zero_named _ _ _ I (or_introl eq_refl)) in Z. auto.
Qed.
Lemma use_move ts ts' n t : ~ container n -> go_use sch rt ts n t -> go_use sch rt ts' n t.
Proof.
  intros NC U. destruct U as [ts n t I|ts n I|ts ti t D U|ts tk k ti t K U D V|ts n td P D T|ts n td P D T].
  - now constructor.
  - now constructor.
  - destruct NC. now left.
  - destruct NC. now right.
  - eapply gu_struct; eassumption.
  - eapply gu_other; eassumption.
Qed.
Definition good (ts : typespec) (j : value) : Prop :=
  (forall t, ~ In (ts_type ts) not_go -> go_use sch rt ts (ts_type ts) t -> used t -> RT t j)
  /\ (forall td, In td (sc_types sch) -> td_spec td = ts -> ts_type ts <> "Decimal" -> RT (GNamed (td_name td)) j)
  /\ ts_type ts <> "Union".
Lemma basic_builtin n t : In (n, t) go_basic -> In n builtin_names.
Proof. intros I. cbn in I. repeat (destruct I as [I|I]; [injection I as <- _; cbn; tauto|]). destruct I. Qed.
Lemma library_builtin n : In n go_library -> In n builtin_names.
Proof. intros I. cbn in I |- *. intuition. Qed.
Lemma user_good ts n ts' t x : ~ In n builtin_names -> defines sch n ts' -> good ts' x -> ts_type ts' <> "Decimal" -> go_use sch rt ts n t -> x <> VNil ->
  RT t x /\ (ts_type ts' = "Struct" -> exists u, t = GPtr u).
Proof.
  intros NB D (_ & B & _) N U NN. destruct (user_type n ts' NB D) as (td & It & E & S). specialize (B td It S N). rewrite E in B.
  destruct U as [ts n t I|ts n I|ts ti t Di U|ts tk k ti t K U Di V|ts n t0 P D0 T|ts n t0 P D0 T].
  - destruct (NB (basic_builtin _ _ I)).
  - destruct (NB (library_builtin _ I)).
  - destruct NB. cbn. tauto.
  - destruct NB. cbn. tauto.
  - split; [apply RT_ptr; assumption|]. eauto.
  - split; [exact B|]. intros T'. rewrite (defines_fun sch m Hm n _ _ D D0) in T'. contradiction.
Qed.
Lemma part_good ts n ts' t x : part_kept sch n -> defines sch n ts' -> good ts' x -> go_use sch rt ts n t -> used t -> x <> VNil -> RT t x.
Proof.
  intros (NC & NG & ND1) D G U Us NN. destruct (in_dec string_dec n builtin_names) as [I|NB].
  - assert (E := builtin_def n ts' I D). destruct G as (A & _). assert (Et : ts_type ts' = n) by (rewrite E; reflexivity).
    apply A; [rewrite Et; exact NG|rewrite Et; exact (use_move _ _ _ _ NC U)|exact Us].
  - refine (proj1 (user_good ts n ts' t x NB D G _ U NN)). intros E. destruct NB. rewrite (ND1 ts' D E). cbn. tauto.
Qed.
Lemma use_name ts n t n' : go_use sch rt ts n t -> In n' (map fst go_basic) -> n = n' -> In (n', t) go_basic.
Proof.
  intros U I ->. destruct U as [ts n t J|ts n J|ts ti t D U|ts tk k ti t K U D V|ts n td (P & _) D T|ts n td (P & _) D T]; [exact J| | | |contradiction|contradiction];
    cbn in *; intuition (subst; discriminate).
Qed.
Lemma use_lib ts n t n' : go_use sch rt ts n t -> In n' go_library -> n = n' -> t = GPtr (if rt then GLib n' else GNamed n').
Proof.
  intros U I ->. destruct U as [ts n t J|ts n J|ts ti t D U|ts tk k ti t K U D V|ts n td (_ & P & _) D T|ts n td (_ & P & _) D T]; [|reflexivity| | |contradiction|contradiction];
    cbn in *; intuition (subst; discriminate).
Qed.
Lemma use_array ts n t : go_use sch rt ts n t -> n = "Array" -> exists ti u, t = GSlice u /\ defines sch (ts_items ts) ti /\ go_use sch rt ti (ts_items ts) u.
Proof.
  intros U ->. inversion U; subst; eauto.
  - exfalso. cbn in *. intuition discriminate.
  - exfalso. cbn in *. intuition discriminate.
  - match goal with P : plain_use _ |- _ => destruct P as (_ & _ & P & _); contradiction end.
  - match goal with P : plain_use _ |- _ => destruct P as (_ & _ & P & _); contradiction end.
Qed.
Lemma use_map ts n t : go_use sch rt ts n t -> n = "Map" -> exists tk k ti u, t = GMap k u /\ defines sch (ts_keys ts) tk /\ go_use sch rt tk (ts_keys ts) k
  /\ defines sch (ts_items ts) ti /\ go_use sch rt ti (ts_items ts) u.
Proof.
  intros U ->. inversion U; subst.
  - exfalso. cbn in *. intuition discriminate.
  - exfalso. cbn in *. intuition discriminate.
  - do 4 eexists. repeat split; eassumption.
  - match goal with P : plain_use _ |- _ => destruct P as (_ & _ & _ & P); contradiction end.
  - match goal with P : plain_use _ |- _ => destruct P as (_ & _ & _ & P); contradiction end.
Qed.
Lemma keep_here ts j : keep ts j -> keep1 ts j.
Proof. intros K. apply K. constructor. Qed.
Lemma shown_kind td k (P : Prop) : In td (sc_types sch) -> ts_type (td_spec td) = k -> ~ In k go_kinds -> P.
Proof.
  intros I <- N. destruct (shown td I) as (l & Sh & _). exfalso. apply N. destruct Sh as [gs es K F Er|tags gs es K L F Er|el K F|K|K|K|t K U|k t K U V|t N1 N2 K]; try (rewrite K; cbn; tauto).
  cbn in K. repeat (destruct K as [K|K]; [injection K as K _; rewrite <- K in *; first [congruence|cbn; tauto]|]). destruct K.
Qed.
Lemma upper_of n g : starts_with_letter n -> large_first n g -> exported g.
Proof.
  intros (c & r & -> & L) [[E _]|(c' & r' & E & H)]; [discriminate|]. injection E as <- <-. destruct H as [(u & (U & _) & ->)|[(A & B & ->)|(A & _)]].
  - exists u, r. auto.
  - destruct L as [L|L]; [contradiction|]. exists c, r. auto.
  - destruct A. unfold ascii7. destruct L as [L|L]; unfold lower_letter, upper_letter in L; lia.
Qed.
Ltac off T := first
  [ congruence
  | match goal with H : In (ts_type ?ts) ?l |- _ => solve [rewrite T in H; cbn in H; intuition discriminate] end
  | match goal with H : ~ In (ts_type ?ts) kinds |- _ => solve [destruct H; rewrite T; cbn; tauto] end ].
Lemma user_num td t d : In td (sc_types sch) -> ts_type (td_spec td) <> "Bool" -> ts_type (td_spec td) <> "String" -> In (ts_type (td_spec td), t) go_basic ->
  RT t (VDec d) -> RT (GNamed (td_name td)) (VDec d).
Proof.
  intros I N1 N2 B R. destruct (shown td I) as (l & Sh & Sub). destruct Sh as [gs es K F Er|tags gs es K L F Er|el K F|K|K|K|t' K U|k t' K U V|t' _ _ K];
    try (exfalso; rewrite K in B; cbn in B; intuition discriminate); try congruence.
  assert (t' = t) as -> by (eapply basic_fun; eassumption). apply (RT_number _ t); [apply Sub; cbn; auto|exact R].
Qed.
Lemma forall2_both {A B} (P Q : A -> B -> Prop) l l' : Forall2 P l l' -> (forall a b, In a l -> In b l' -> P a b -> Q a b) -> Forall2 Q l l'.
Proof. induction 1 as [|a b l l' H F IH]; intros HH; constructor; [apply HH; [now left|now left|exact H]|]. apply IH. intros a' b' I J. apply HH; now right. Qed.
Lemma use_struct ts t : go_use sch rt ts (ts_type ts) t -> has_kind sch ts "Struct" -> exists u, t = GPtr u.
Proof.
  intros U (ts' & [NK D] & T). remember (ts_type ts) as n eqn:En. destruct U as [ts n t I|ts n I|ts ti t Di U|ts tk k ti t K U Di V|ts n t0 P D0 T0|ts n t0 P D0 T0].
  - destruct NK. cbn in I. repeat (destruct I as [I|I]; [injection I as <- _; cbn; tauto|]). destruct I.
  - eauto.
  - destruct NK. cbn. tauto.
  - destruct NK. cbn. tauto.
  - eauto.
  - rewrite (defines_fun sch m Hm n _ _ D D0) in T. contradiction.
Qed.
Lemma tags_same (fs : list fielddef) gs : fields_shown sch rt fs gs -> map gf_json gs = map (fun f : fielddef => fd_name f) fs.
Proof. induction 1 as [|f g fs gs (_ & _ & _ & J & _) F IH]; cbn [map]; congruence. Qed.
Theorem data_good ts j : member X sch ts j -> vwf j -> keep ts j -> good ts j.
Proof.
  intros M. induction M as [ts t T|ts v s t T TO TT RT0|ts v s T TO SZ VS PO|ts l T CO _ IH|ts ts' l T D _ IH SZ|ts ts1 ts2 l T D1 D2 _ _ _ IH SZ
    |ts d T WI IR|ts b T|ts b T|ts v s T TO EX|ts s T|ts v s T TO US|ts v a u d ts1 ts2 T|ts v s T|ts v T|ts ts' v RF M IH]; intros WF K; pose proof (keep_here _ _ K) as K1.
  - exfalso. inversion K1; subst; off T.
  - inversion K1 as [| | | | | |s0 t0 _ TR TW| | | | |]; subst; try (exfalso; off T). split; [|split; [|rewrite T; discriminate]].
    + intros t1 _ U Us. apply (use_lib ts _ t1 "Timestamp" U) in T; [|cbn; auto]. subst t1. apply RT_ptr; [discriminate|]. destruct (Bool.bool_dec rt true) as [Q|Q]; [|apply Bool.not_true_is_false in Q]; rewrite Q in Us |- *.
      * eapply RT_libtime; [exact TR|reflexivity].
      * eapply RT_time; [|exact TR|reflexivity]. apply used_time. refine (used_part _ _ _ Us). right. apply mentions_refl.
    + intros td I E _. apply (shown_kind td "Timestamp" _ I); [rewrite E; exact T|cbn; intuition discriminate].
  - inversion K1 as [|s0 Q| | | | | | | | | |]; subst; try (exfalso; off T). split; [|split; [|rewrite T; discriminate]].
    + intros t1 _ U Us. apply (use_name ts _ t1 "String" U) in T; [|cbn; auto]. cbn in T. assert (t1 = GString) as -> by intuition congruence. apply RT_string.
    + intros td I <- _. destruct (shown td I) as (l & Sh & Sub). destruct Sh; try congruence.
      apply (RT_type _ GString false); [apply Sub; cbn; auto|discriminate|apply RT_string].
  - inversion WF as [? ? W1|? W1|? N1 W1]; subst; [destruct (W1 l eq_refl)|].
    inversion K1 as [| | | | | | | | | |l0 _ NN FX FO FE|]; subst; try (exfalso; off T).
    split; [intros t1 NG; exfalso; apply NG; rewrite T; cbn; tauto|split; [|rewrite T; discriminate]].
    intros td I <- _. destruct (shown td I) as (ls & Sh & Sub). destruct Sh as [gs es Kd F Er|tags gs es Kd L F Er|el Kd F|Kd|Kd|Kd|t Kd U|k t Kd U V|t N1' N2 Kd]; try congruence; [|exfalso; rewrite T in Kd; cbn in Kd; intuition discriminate].
    assert (ID : In (GdStruct (td_name td) gs) ds) by (apply Sub; cbn; auto).
    apply (RT_struct l (td_name td) (ts_fields (td_spec td)) gs ID); [|exact N1|exact NN|exact (proj1 CO)|].
    { split; [rewrite (tags_same _ _ F); exact NN|]. intros g Ig. apply (in_map gf_json) in Ig. rewrite (tags_same _ _ F) in Ig. apply in_map_iff in Ig as (f & <- & If). exact (proj1 (FX f If)). }
    refine (forall2_both _ _ _ _ F _). intros f g If Ig (NE & LF & U & J & O).
    assert (KX : forall x, In (fd_name f, x) l -> keep (fd_spec f) x) by (intros x Ix t2 v2 P; apply K; eapply ap_field; eassumption).
    assert (Us : used (gf_type g)) by (exists (GdStruct (td_name td) gs); split; [exact ID|]; exists g; split; [exact Ig|apply mentions_refl]).
    assert (GX : forall x, In (fd_name f, x) l -> RT (gf_type g) x).
    { intros x Ix. destruct (IH f x If Ix) as (A & _); [rewrite Forall_forall in W1; exact (W1 _ Ix)|exact (KX x Ix)|]. apply A; [exact (proj2 (proj2 (FX f If)))|exact U|exact Us]. }
    split.
    + exact J.
    + exact O.
    + eapply upper_of; [exact (proj1 (proj2 (FX f If)))|exact LF].
    + exact GX.
    + intros x v Ix Rq R E. destruct (FE f x If Rq Ix) as [Ne|Hk].
      * apply Ne. exact (proj2 (proj2 (GX x Ix)) v R E).
      * destruct (use_struct _ _ U Hk) as (u & Eu). rewrite Eu in R. exact (ptr_nonempty _ _ _ (keep_nonnil _ _ (keep_here _ _ (KX x Ix))) R E).
    + exact (proj2 CO f If).
    + intros Rq. destruct (FO f If Rq) as [NU NDc]. apply (use_zero (fd_spec f)); [exact U|exact (proj2 (proj2 (FX f If)))|exact NU|exact NDc].
  - inversion WF as [? W1|? W1|]; subst; [destruct (W1 l eq_refl)|].
    inversion K1 as [| | | | | | | |l0 _ PK| | |]; subst; try (exfalso; off T).
    assert (NA : ts_items ts <> "Any") by (intros E; apply (proj1 (proj2 PK)); rewrite E; cbn; tauto).
    assert (KX : forall x, In x l -> keep ts' x) by (intros x I t2 v2 P; apply K; eapply ap_item; eassumption).
    assert (GX : forall x, In x l -> good ts' x) by (intros x I; apply (IH x I); [rewrite Forall_forall in W1; auto|auto]).
    split; [|split; [|rewrite T; discriminate]].
    + intros t1 _ U Us. destruct (use_array ts _ t1 U T) as (ti & t & -> & Di & Ut). apply RT_slice. apply Forall_forall. intros x Ix.
      eapply part_good; [exact PK|exact D|exact (GX x Ix)|exact Ut| |exact (keep_nonnil _ _ (keep_here _ _ (KX x Ix)))].
      refine (used_part _ _ _ Us). right. apply mentions_refl.
    + intros td I <- _. destruct (shown td I) as (ls & Sh & Sub). destruct Sh as [gs es Kd F Er|tags gs es Kd L F Er|el Kd F|Kd|Kd|Kd|t Kd U|k t Kd U V|t N1' N2 Kd]; try congruence; [|exfalso; rewrite T in Kd; cbn in Kd; intuition discriminate].
      assert (ID : In (GdType (td_name td) (GSlice t) false) ds) by (apply Sub; cbn; auto).
      apply (RT_type _ (GSlice t) false); [exact ID|discriminate|]. apply RT_slice. apply Forall_forall. intros x Ix.
      eapply part_good; [exact PK|exact D|exact (GX x Ix)|eassumption| |exact (keep_nonnil _ _ (keep_here _ _ (KX x Ix)))].
      exists (GdType (td_name td) (GSlice t) false). split; [exact ID|]. right. apply mentions_refl.
  - inversion WF as [? ? W1|? W1|? N1 W1]; subst; [destruct (W1 l eq_refl)|].
    inversion K1 as [| | | | | | | | |l0 _ KS PK| |]; subst; try (exfalso; off T).
    assert (NA : ts_items ts <> "Any") by (intros E; apply (proj1 (proj2 PK)); rewrite E; cbn; tauto).
    assert (KX : forall k x, In (k, x) l -> keep ts2 x) by (intros k x I t2 v2 P; apply K; eapply ap_entry; eassumption).
    assert (GX : forall k x, In (k, x) l -> good ts2 x) by (intros k x I; apply (IH k x I); [rewrite Forall_forall in W1; exact (W1 _ I)|eauto]).
    assert (FF : forall tu t, go_use sch rt tu (ts_items ts) t -> used t -> Forall (fun x => RT t (snd x)) l).
    { intros tu t Ut Us. apply Forall_forall. intros [k x] Ix. cbn [snd].
      eapply part_good; [exact PK|exact D2|exact (GX k x Ix)|exact Ut|exact Us|exact (keep_nonnil _ _ (keep_here _ _ (KX k x Ix)))]. }
    assert (KK : forall tu k, go_use sch rt tu (ts_keys ts) k -> string_kind ds k).
    { intros tu k Uk. apply (use_name tu _ k "String" Uk) in KS; [|cbn; auto]. cbn in KS. left. intuition congruence. }
    split; [|split; [|rewrite T; discriminate]].
    + intros t1 _ U Us. destruct (use_map ts _ t1 U T) as (tk & k & ti & t & -> & _ & Uk & _ & Ut).
      apply RT_map; [eauto|exact N1|]. apply (FF ti t Ut). refine (used_part _ _ _ Us). right. right. apply mentions_refl.
    + intros td I <- _. destruct (shown td I) as (ls & Sh & Sub). destruct Sh as [gs es Kd F Er|tags gs es Kd L F Er|el Kd F|Kd|Kd|Kd|t Kd U|k t Kd U V|t N1' N2 Kd]; try congruence; [|exfalso; rewrite T in Kd; cbn in Kd; intuition discriminate].
      assert (ID : In (GdType (td_name td) (GMap k t) false) ds) by (apply Sub; cbn; auto).
      apply (RT_type _ (GMap k t) false); [exact ID|discriminate|]. apply RT_map; [eauto|exact N1|]. apply (FF _ t V).
      exists (GdType (td_name td) (GMap k t) false). split; [exact ID|]. right. right. apply mentions_refl.
  - assert (NU : ts_type ts <> "Union") by (intros E; rewrite E in T; cbn in T; intuition discriminate).
    assert (Q : (exists t, In (ts_type ts, t) go_basic /\ RT t (VDec d)) \/ (ts_type ts = "Decimal" /\ rt = true /\ big d = d)).
    { cbn in T. destruct T as [T|[T|[T|[T|[T|[T|[T|[]]]]]]]]; symmetry in T.
      - left. exists (GInt 8). rewrite T in *. split; [cbn; tauto|]. eapply RT_int; [apply IR; reflexivity|]. unfold int_fits. intros z. change (2 ^ (8 - 1))%Z with 128%Z. lia.
      - left. exists (GInt 16). rewrite T in *. split; [cbn; tauto|]. eapply RT_int; [apply IR; reflexivity|]. unfold int_fits. intros z. change (2 ^ (16 - 1))%Z with 32768%Z. lia.
      - left. exists (GInt 32). rewrite T in *. split; [cbn; tauto|]. eapply RT_int; [apply IR; reflexivity|]. unfold int_fits. intros z. change (2 ^ (32 - 1))%Z with 2147483648%Z. lia.
      - left. exists (GInt 64). rewrite T in *. split; [cbn; tauto|]. eapply RT_int; [apply IR; reflexivity|]. unfold int_fits. intros z. change (2 ^ (64 - 1))%Z with 9223372036854775808%Z. lia.
      - left. exists (GFloat 32). inversion K1; subst; try (exfalso; off T). rewrite T. split; [cbn; tauto|]. apply RT_float. assumption.
      - left. exists (GFloat 64). inversion K1; subst; try (exfalso; off T). rewrite T. split; [cbn; tauto|]. apply RT_float. assumption.
      - right. inversion K1; subst; try (exfalso; off T). auto. }
    split; [|split; [|exact NU]].
    + intros t1 _ U Us. destruct Q as [(t & B & R)|(E & Q & Bd)].
      * pose proof (use_name ts _ t1 (ts_type ts) U (in_map fst _ _ B) eq_refl) as B1. assert (t1 = t) as -> by (eapply basic_fun; eassumption). exact R.
      * apply (use_lib ts _ t1 "Decimal" U) in E; [|cbn; auto]. subst t1. apply RT_ptr; [discriminate|]. rewrite Q. apply RT_libdec. exact Bd.
    + intros td I <- NDc. destruct Q as [(t & B & R)|(E & _)]; [|contradiction].
      apply (user_num td t d I); [intros E; rewrite E in T; cbn in T; intuition discriminate|intros E; rewrite E in T; cbn in T; intuition discriminate|exact B|exact R].
  - inversion K1; subst; try (exfalso; off T). split; [|split; [|rewrite T; discriminate]].
    + intros t1 _ U Us. apply (use_name ts _ t1 "Bool" U) in T; [|cbn; auto]. cbn in T. assert (t1 = GBool) as -> by intuition congruence. apply RT_bool.
    + intros td I E _. apply (shown_kind td "Bool" _ I); [rewrite E; exact T|cbn; intuition discriminate].
  - exfalso. inversion K1; subst; off T.
  - inversion K1 as [| | | | | | |s0 _ XA| | | |]; subst; try (exfalso; off T).
    split; [intros t1 NG; exfalso; apply NG; rewrite T; cbn; tauto|split; [|rewrite T; discriminate]].
    intros td I <- _. destruct (shown td I) as (ls & Sh & Sub). destruct Sh as [gs es Kd F Er|tags gs es Kd L F Er|el Kd F|Kd|Kd|Kd|t Kd U|k t Kd U V|t N1' N2 Kd]; try congruence; [|exfalso; rewrite T in Kd; cbn in Kd; intuition discriminate].
    assert (s0 = s) as -> by (destruct TO as [E|E]; congruence).
    apply (RT_enum _ el); [apply Sub; cbn; auto|]. destruct EX as (e & Ie & <-). clear -F Ie XA.
    induction F as [|e0 p es ps [E H] F IH]; [destruct Ie|]. destruct Ie as [<- |Ie].
    + left. destruct H as [(a & b & v & Ea & _)|[_ H]]; [|exact H]. exfalso. apply (XA e0 (or_introl eq_refl)). rewrite Ea, map_app. apply in_or_app. right. now left.
    + right. apply IH; [exact Ie|]. intros e' Ie'. apply XA. now right.
  - exfalso. inversion K1; subst; off T.
  - inversion K1 as [|s0 Q| | | | | | | | | |]; subst; try (exfalso; off T).
    split; [intros t1 NG; exfalso; apply NG; rewrite T; cbn; tauto|split; [|rewrite T; discriminate]].
    intros td I <- _. destruct (shown td I) as (l & Sh & Sub). destruct Sh as [gs es Kd F Er|tags gs es Kd L F Er|el Kd F|Kd|Kd|Kd|t Kd U|k t Kd U V|t N1' N2 Kd]; try congruence; [|exfalso; rewrite T in Kd; cbn in Kd; intuition discriminate].
    apply (RT_type _ GString true); [apply Sub; cbn; auto|discriminate|apply RT_string].
  - exfalso. inversion K1; subst; off T.
  - exfalso. inversion K1; subst; off T.
  - exfalso. inversion K1; subst; off T.
  - assert (KX : keep ts' v) by (intros t2 v2 P; apply K; eapply ap_ref; eassumption).
    specialize (IH WF KX). destruct RF as [NK D].
    assert (NU : ts_type ts <> "Union").
    { intros E. rewrite E in D. assert (I : In "Union" builtin_names) by (cbn; tauto). rewrite (builtin_def _ _ I D) in IH. destruct IH as (_ & _ & IH). apply IH. reflexivity. }
    split; [|split; [|exact NU]].
    + intros t1 NG U Us. assert (NB : ~ In (ts_type ts) builtin_names).
      { intros I. cbn in I, NK. intuition. }
      assert (ND1 : ts_type ts' <> "Decimal").
      { intros E. inversion K1; subst; try (solve [destruct NK; match goal with H : ts_type ts = _ |- _ => rewrite H; cbn; tauto | H : In (ts_type ts) _ |- _ => cbn in H |- *; intuition end]).
        match goal with H : ~ has_kind _ _ "Decimal" |- _ => apply H end. exists ts'. split; [split; assumption|exact E]. }
      refine (proj1 (user_good ts _ ts' t1 v NB D IH ND1 U (keep_nonnil _ _ K1))).
    + intros td I E _. exfalso. destruct (in_dec string_dec (ts_type ts) go_kinds) as [IK|IK]; [cbn in IK, NK; intuition congruence|].
      apply (shown_kind td (ts_type ts) _ I); [rewrite E; reflexivity|exact IK].
Qed.
End DATA.

(** *** data that is kept, by parts *)
Section KEPT.
Context (sch : schema) (rt : bool) (round : Z -> decimal -> decimal) (big : decimal -> decimal) (time_read : string -> option timestamp) (time_write : timestamp -> string).
Notation keep := (kept sch rt round big time_read time_write).
Notation keep1 := (kept_here sch rt round big time_read time_write).
Lemma keep_leaf ts v : In (ts_type ts) kinds -> ~ In (ts_type ts) ["Struct"; "Array"; "Map"] -> keep1 ts v -> keep ts v.
Proof.
  intros K N H t2 v2 P. inversion P; subst; [exact H| | | |].
  - match goal with R : refers _ _ _ |- _ => destruct R as [R _]; contradiction end.
  - destruct N. match goal with T : ts_type ts = _ |- _ => rewrite T end. cbn. tauto.
  - destruct N. match goal with T : ts_type ts = _ |- _ => rewrite T end. cbn. tauto.
  - destruct N. match goal with T : ts_type ts = _ |- _ => rewrite T end. cbn. tauto.
Qed.
Lemma keep_ref ts v : ~ In (ts_type ts) kinds -> keep1 ts v -> (forall ts', defines sch (ts_type ts) ts' -> keep ts' v) -> keep ts v.
Proof.
  intros N H R t2 v2 P. inversion P; subst; [exact H| | | |].
  - match goal with Q : refers _ _ _ |- _ => destruct Q as [_ Q]; apply (R _ Q); assumption end.
  - destruct N. match goal with T : ts_type ts = _ |- _ => rewrite T end. cbn. tauto.
  - destruct N. match goal with T : ts_type ts = _ |- _ => rewrite T end. cbn. tauto.
  - destruct N. match goal with T : ts_type ts = _ |- _ => rewrite T end. cbn. tauto.
Qed.
Lemma keep_struct ts l : ts_type ts = "Struct" -> keep1 ts (VMap l) -> (forall f x, In f (ts_fields ts) -> In (fd_name f, x) l -> keep (fd_spec f) x) -> keep ts (VMap l).
Proof.
  intros T H R t2 v2 P. inversion P; subst; [exact H| | |]; try congruence.
  - match goal with Q : refers _ _ _ |- _ => destruct Q as [Q _]; destruct Q; rewrite T; cbn; tauto end.
  - eapply R; eassumption.
Qed.
Lemma keep_array ts l : ts_type ts = "Array" -> keep1 ts (VArr l) -> (forall ts' x, defines sch (ts_items ts) ts' -> In x l -> keep ts' x) -> keep ts (VArr l).
Proof.
  intros T H R t2 v2 P. inversion P; subst; [exact H| |]; try congruence.
  - match goal with Q : refers _ _ _ |- _ => destruct Q as [Q _]; destruct Q; rewrite T; cbn; tauto end.
  - eapply R; eassumption.
Qed.
Lemma keep_map ts l : ts_type ts = "Map" -> keep1 ts (VMap l) -> (forall ts' k x, defines sch (ts_items ts) ts' -> In (k, x) l -> keep ts' x) -> keep ts (VMap l).
Proof.
  intros T H R t2 v2 P. inversion P; subst; [exact H| | |]; try congruence.
  - match goal with Q : refers _ _ _ |- _ => destruct Q as [Q _]; destruct Q; rewrite T; cbn; tauto end.
  - eapply R; eassumption.
Qed.
End KEPT.
