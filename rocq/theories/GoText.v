(** The generated Go file of types: imports, helpers, text and crashes. *)
From Verif Require Import GoStr Outcome Value Schema Scalars Model Misc Generator Golang GoModel SpecTime SpecMisc SpecModel SpecPV SpecTrace SpecGo
  ModelFacts PVFacts TraceFacts GoModelFacts.
From Coq Require Import Permutation.

Definition sadl_package : string := "github.com/boynton/sadl".
Definition brings (d : godecl) (p : string) : Prop := needs d p /\ forall n l, d <> GdEnum n l.
Lemma adjoin_in l v p : In p (adjoin l v) <-> In p l \/ p = v.
Proof.
  unfold adjoin. destruct (str_mem v l) eqn:E.
  - apply str_mem_In in E. split; [auto|]. intros [I| ->]; auto.
  - rewrite in_app_iff. cbn. intuition congruence.
Qed.
Lemma adjoin_nodup l v : NoDup l -> NoDup (adjoin l v).
Proof.
  intros N. unfold adjoin. destruct (str_mem v l) eqn:E; [exact N|].
  assert (I : ~ In v l) by (intros I; apply str_mem_In in I; congruence).
  apply NoDup_rev in N. rewrite <- rev_involutive. apply NoDup_rev. rewrite rev_app_distr. cbn. constructor; [|exact N].
  rewrite <- in_rev. exact I.
Qed.
(** [T]: the types mentioned, [P]: the packages brought in *)
Definition gostep (st st' : gost) (T : gotype -> Prop) (P : string -> Prop) : Prop :=
  (go_time st' = true <-> go_time st = true \/ T (GNamed "Timestamp"))
  /\ (go_dec st' = true <-> go_dec st = true \/ T (GNamed "Decimal"))
  /\ (forall p, In p (go_imports st') <-> In p (go_imports st) \/ P p)
  /\ (NoDup (go_imports st) -> NoDup (go_imports st')).
Lemma gostep_refl st (T : gotype -> Prop) (P : string -> Prop) : ~ T (GNamed "Timestamp") -> ~ T (GNamed "Decimal") -> (forall p, ~ P p) -> gostep st st T P.
Proof. intros A B C. repeat split; try tauto. intros [I|I]; [exact I|destruct (C _ I)]. Qed.
Lemma gostep_trans a b c T P T' P' : gostep a b T P -> gostep b c T' P' -> gostep a c (fun x => T x \/ T' x) (fun p => P p \/ P' p).
Proof.
  intros (A1 & A2 & A3 & A4) (B1 & B2 & B3 & B4). split; [tauto|]. split; [tauto|]. split; [|auto]. intros p. rewrite B3, A3. tauto.
Qed.
Lemma gostep_ext a b (T P T' P' : _ -> Prop) : gostep a b T P -> T (GNamed "Timestamp") <-> T' (GNamed "Timestamp") -> T (GNamed "Decimal") <-> T' (GNamed "Decimal") ->
  (forall p, P p <-> P' p) -> gostep a b T' P'.
Proof. intros (A1 & A2 & A3 & A4) E1 E2 E3. split; [tauto|]. split; [tauto|]. split; [|exact A4]. intros p. rewrite A3, E3. tauto. Qed.
Definition lib_import (t : gotype) (p : string) : Prop := p = sadl_package /\ exists n, type_mentions t (GLib n).
Lemma import_step p st (T : gotype -> Prop) (P : string -> Prop) : ~ T (GNamed "Timestamp") -> ~ T (GNamed "Decimal") -> (forall q, P q <-> q = p) -> gostep st (add_import p st) T P.
Proof.
  intros A B C. unfold gostep, add_import; cbn [go_time go_dec go_imports]. split; [tauto|]. split; [tauto|].
  split; [intros q; rewrite adjoin_in, C; tauto|apply adjoin_nodup].
Qed.

Section EFFECT.
Context (sch : schema) (m : model) (Hm : new_model sch = Ok m) (rt : bool).
Notation use := (go_use sch rt).
Lemma plain_no_library n x : plain_use n -> In x go_library -> n <> x.
Proof. intros (_ & P & _) I ->. contradiction. Qed.
Lemma effect_step f : forall ts n s t st, native_type m rt f ts n = Ok s -> use ts n t ->
  gostep st (native_effect m rt f ts n st) (type_mentions t) (lib_import t).
Proof.
  induction f as [|f IH]; [discriminate|]. intros ts n s t st N U. cbn [native_effect].
  assert (NL : forall u, (forall k, ~ type_mentions u (GLib k)) -> forall p, ~ lib_import u p) by (intros u H p (_ & k & M); exact (H k M)).
  assert (Lib : forall k q, lib_import (GPtr (GLib k)) q <-> q = sadl_package).
  { intros k q. split; [intros [E _]; exact E|]. intros ->. split; [reflexivity|]. exists k. cbn. auto. }
  destruct U as [ts n t I|ts n I|ts ti t D U|ts tk k ti t K U D V|ts n td P D T|ts n td P D T].
  - cbn in I. repeat (destruct I as [I|I]; [injection I as <- <-; cbn -[gostep type_mentions lib_import]; apply gostep_refl;
      [cbn; intuition discriminate|cbn; intuition discriminate|apply NL; cbn; intuition discriminate]|]). destruct I.
  - destruct I as [<- |[<- |[<- |[]]]]; cbn -[gostep type_mentions lib_import add_import]; destruct rt.
    + apply import_step; [cbn; intuition discriminate|cbn; intuition discriminate|apply Lib].
    + split; [cbn; intuition (try discriminate; congruence)|]. split; [cbn; tauto|]. split; [|auto]. intros p. cbn [set_dec go_imports].
      split; [auto|]. intros [J|J]; [exact J|]. destruct (NL (GPtr (GNamed "Decimal"))) with (p := p); [cbn; intuition discriminate|exact J].
    + apply import_step; [cbn; intuition discriminate|cbn; intuition discriminate|apply Lib].
    + split; [cbn; tauto|]. split; [cbn; intuition (try discriminate; congruence)|]. split; [|auto]. intros p. cbn [set_time go_imports].
      split; [auto|]. intros [J|J]; [exact J|]. destruct (NL (GPtr (GNamed "Timestamp"))) with (p := p); [cbn; intuition discriminate|exact J].
    + apply import_step; [cbn; intuition discriminate|cbn; intuition discriminate|apply Lib].
    + apply gostep_refl; [cbn; intuition discriminate|cbn; intuition discriminate|apply NL; cbn; intuition discriminate].
  - cbn [native_type] in N. change ("Array" =?s "Decimal") with false. change ("Array" =?s "Timestamp") with false. change ("Array" =?s "UnitValue") with false.
    change ("Array" =?s "Array") with true. cbv iota. cbv [str_mem] in N. cbn in N. destruct (def_find sch m Hm _ _ D) as (td & F & E). rewrite F in N |- *.
    apply rbind_Ok in N as (x & N & _). rewrite E in N |- *. eapply gostep_ext; [eapply IH; eassumption|cbn; intuition discriminate|cbn; intuition discriminate|].
    intros p. unfold lib_import. split; (intros [-> (k & M)]; split; [reflexivity|]; exists k); [cbn; auto|cbn in M; destruct M; [discriminate|assumption]].
  - cbn [native_type] in N. change ("Map" =?s "Decimal") with false. change ("Map" =?s "Timestamp") with false. change ("Map" =?s "UnitValue") with false.
    change ("Map" =?s "Array") with false. change ("Map" =?s "Map") with true. cbv iota. cbv [str_mem] in N. cbn in N.
    destruct (def_find sch m Hm _ _ D) as (td & F & E). destruct (def_find sch m Hm _ _ K) as (kd & G & E'). rewrite F, G in N |- *.
    apply rbind_Ok in N as (x & N & N'). apply rbind_Ok in N' as (y & N' & _). rewrite E, E' in *.
    eapply gostep_ext; [eapply gostep_trans; [eapply IH; [exact N|exact U]|eapply IH; [exact N'|exact V]]|cbn; intuition discriminate|cbn; intuition discriminate|].
    intros p. unfold lib_import. split.
    + intros [[-> (j & M)]|[-> (j & M)]]; (split; [reflexivity|]; exists j; cbn; auto).
    + intros [-> (j & M)]. cbn in M. destruct M as [M|[M|M]]; [discriminate|left; eauto|right; eauto].
  - assert (Q : forall x, In x go_library -> n <> x) by (intros x; apply plain_no_library; exact P). destruct P as (_ & _ & PA & PM).
    rewrite (proj2 (seqb_neq n "Decimal")), (proj2 (seqb_neq n "Timestamp")), (proj2 (seqb_neq n "UnitValue")), (proj2 (seqb_neq n "Array")), (proj2 (seqb_neq n "Map"))
      by (assumption || (apply Q; cbn; tauto)).
    apply gostep_refl; [cbn; intros [C|[C|[]]]; [discriminate|injection C; apply Q; cbn; tauto]|cbn; intros [C|[C|[]]]; [discriminate|injection C; apply Q; cbn; tauto]|].
    apply NL. cbn. intuition discriminate.
  - assert (Q : forall x, In x go_library -> n <> x) by (intros x; apply plain_no_library; exact P). destruct P as (_ & _ & PA & PM).
    rewrite (proj2 (seqb_neq n "Decimal")), (proj2 (seqb_neq n "Timestamp")), (proj2 (seqb_neq n "UnitValue")), (proj2 (seqb_neq n "Array")), (proj2 (seqb_neq n "Map"))
      by (assumption || (apply Q; cbn; tauto)).
    apply gostep_refl; [cbn; intros [C|[]]; injection C; apply Q; cbn; tauto|cbn; intros [C|[]]; injection C; apply Q; cbn; tauto|].
    apply NL. cbn. intuition discriminate.
Qed.
Lemma native_name_spec ts n st s st' : native_name m rt ts n st = Ok (s, st') ->
  exists t, use ts n t /\ s = type_text t /\ gostep st st' (type_mentions t) (lib_import t).
Proof.
  unfold native_name. intros H. apply rbind_Ok in H as (x & N & E). assert (x = s /\ st' = native_effect m rt 3 ts n st) as [-> ->] by (split; congruence).
  assert (G := N). apply (native_iff sch m Hm) in N as (t & U & E'). exists t. split; [exact U|]. split; [exact E'|]. eapply effect_step; eassumption.
Qed.
Lemma native_name_ok ts n st t : use ts n t -> exists st', native_name m rt ts n st = Ok (type_text t, st').
Proof. intros U. unfold native_name. rewrite (use_three sch m Hm rt _ _ _ U). eexists. reflexivity. Qed.
Lemma native_name_panic ts n st : native_name m rt ts n st = Panic <-> forall t, ~ use ts n t.
Proof.
  rewrite <- (native_panic sch m Hm). unfold native_name. destruct (native_total m rt 3 ts n) as [E|[E|[s E]]]; rewrite E; cbn [rbind]; split; congruence.
Qed.
Lemma native_name_total ts n st : native_name m rt ts n st = Panic \/ exists s st', native_name m rt ts n st = Ok (s, st').
Proof.
  unfold native_name. destruct (native_total m rt 3 ts n) as [E|[E|[s E]]]; rewrite E; cbn [rbind]; eauto. destruct (fuel_three sch m Hm rt _ _ E).
Qed.

Definition decl_step (st st' : gost) (ds : list godecl) : Prop :=
  gostep st st' (fun t => exists d, In d ds /\ decl_mentions d t) (fun p => exists d, In d ds /\ brings d p).
Lemma decl_trans a b c x y : decl_step a b x -> decl_step b c y -> decl_step a c (x ++ y).
Proof.
  intros A B. eapply gostep_ext; [eapply gostep_trans; [exact A|exact B]| | |].
  - split; [intros [(d & I & H)|(d & I & H)]; exists d; rewrite in_app_iff; auto|intros (d & I & H); apply in_app_iff in I as [I|I]; [left|right]; eauto].
  - split; [intros [(d & I & H)|(d & I & H)]; exists d; rewrite in_app_iff; auto|intros (d & I & H); apply in_app_iff in I as [I|I]; [left|right]; eauto].
  - intros p. split; [intros [(d & I & H)|(d & I & H)]; exists d; rewrite in_app_iff; auto|intros (d & I & H); apply in_app_iff in I as [I|I]; [left|right]; eauto].
Qed.
Definition field_step (st st' : gost) (gs : list gofield) : Prop :=
  gostep st st' (fun t => exists f, In f gs /\ type_mentions (gf_type f) t) (fun p => exists f, In f gs /\ lib_import (gf_type f) p).
Lemma field_decl st st' gs d : field_step st st' gs -> (forall t, decl_mentions d t <-> exists f, In f gs /\ type_mentions (gf_type f) t) ->
  (forall p, needs d p -> exists n, decl_mentions d (GLib n) /\ p = sadl_package) -> (forall n l, d <> GdEnum n l) -> decl_step st st' [d].
Proof.
  intros S M N E. assert (X : forall t, (exists f, In f gs /\ type_mentions (gf_type f) t) <-> exists d', In d' [d] /\ decl_mentions d' t).
  { intros t. rewrite <- M. cbn. split; [intros H; exists d; auto|intros (d' & [<- |[]] & H); exact H]. }
  eapply gostep_ext; [exact S|apply X|apply X|]. intros p. cbn. split.
  - intros (f & I & -> & n & L). exists d. split; [auto|]. split; [|exact E]. apply (nd_sadl d n). apply M. eauto.
  - intros (d' & [<- |[]] & H & _). apply N in H as (n & H & ->). apply M in H as (f & I & H). exists f. split; [exact I|]. split; [reflexivity|eauto].
Qed.

(** fields *)
Definition shown_field (x : string * bool * typespec) (g : gofield) : Prop := field_shown sch rt (fst (fst x)) (snd (fst x)) (snd x) g.
Lemma fields_spec xs : forall st s st', emit_fields m rt xs st = Ok (s, st') -> exists gs,
  Forall2 shown_field xs gs /\ s = each field_text gs /\ field_step st st' gs.
Proof.
  induction xs as [|[[n omit] ts] xs IH]; intros st s st'; cbn [emit_fields].
  - intros E. assert (s = "" /\ st' = st) as [-> ->] by (split; congruence). exists []. split; [constructor|]. split; [reflexivity|].
    apply gostep_refl; [intros (f & [] & _)|intros (f & [] & _)|intros p (f & [] & _)].
  - intros H. apply rbind_Ok in H as (c & C & H). apply rbind_Ok in H as ([ft st1] & N & H). apply rbind_Ok in H as ([rest st2] & R & H).
    apply native_name_spec in N as (t & U & -> & S1). apply IH in R as (gs & F & -> & S2). apply go_capitalize_spec in C as [NE L].
    set (g := mkGF c t n omit). exists (g :: gs). split; [constructor; [repeat split; assumption|exact F]|].
    assert (E : st' = st2) by congruence. subst st2. split.
    + assert (E : s = "    " +++ c +++ " " +++ type_text t +++ " " +++ bq +++ "json:""" +++ n +++ (if omit then ",omitempty" else "") +++ """" +++ bq +++ nl +++ each field_text gs) by congruence.
      rewrite E. cbn [each fold_right]. unfold field_text at 2. unfold line, g. cbn [gf_name gf_type gf_json gf_omit]. fold (each field_text gs).
      rewrite !append_assoc. reflexivity.
    + eapply gostep_ext; [eapply gostep_trans; [exact S1|exact S2]| | |].
      * split; [intros [M|(f & I & M)]; [exists g; split; [now left|exact M]|exists f; split; [now right|exact M]]|intros (f & [<- |I] & M); [left|right]; eauto].
      * split; [intros [M|(f & I & M)]; [exists g; split; [now left|exact M]|exists f; split; [now right|exact M]]|intros (f & [<- |I] & M); [left|right]; eauto].
      * intros p. split; [intros [M|(f & I & M)]; [exists g; split; [now left|exact M]|exists f; split; [now right|exact M]]|intros (f & [<- |I] & M); [left|right]; eauto].
Qed.
Definition bad_field (x : string * bool * typespec) : Prop := fst (fst x) = "" \/ forall t, ~ use (snd x) (ts_type (snd x)) t.
Lemma fields_total xs : forall st, (emit_fields m rt xs st = Panic /\ Exists bad_field xs) \/ (exists s st', emit_fields m rt xs st = Ok (s, st') /\ ~ Exists bad_field xs).
Proof.
  induction xs as [|[[n omit] ts] xs IH]; intros st; cbn [emit_fields].
  - right. do 2 eexists. split; [reflexivity|]. intros E. inversion E.
  - destruct (string_dec n "") as [-> |NE].
    { left. split; [reflexivity|]. constructor. left. reflexivity. }
    destruct (go_capitalize n) as [c|e| |] eqn:C; try (destruct n; cbn in C; congruence).
    cbn [rbind]. destruct (native_name_total ts (ts_type ts) st) as [E|(s & st1 & E)]; rewrite E; cbn [rbind].
    { left. split; [reflexivity|]. constructor. right. eapply native_name_panic. exact E. }
    assert (G := E). apply native_name_spec in G as (t & U & _).
    destruct (IH st1) as [[P X]|(s2 & st2 & P & X)]; rewrite P; cbn [rbind].
    { left. split; [reflexivity|]. now constructor 2. }
    right. do 2 eexists. split; [reflexivity|]. intros B. inversion B as [? ? H|? ? H]; subst; [|contradiction].
    destruct H as [H|H]; [exact (NE H)|exact (H t U)].
Qed.
End EFFECT.

Lemma ok_fst {A B} {a a' : A} {b b' : B} : @Ok unit _ (a, b) = Ok (a', b') -> a = a'.
Proof. congruence. Qed.
Lemma use_runtime sch rt rt' ts n t : go_use sch rt ts n t -> exists t', go_use sch rt' ts n t'.
Proof.
  induction 1 as [ts n t I|ts n I|ts ti t D U [t' IH]|ts tk k ti t K U [k' IHk] D V [t' IH]|ts n td P D T|ts n td P D T].
  - exists t. now constructor.
  - eexists. apply gu_library. exact I.
  - eexists. eapply gu_array; eassumption.
  - eexists. eapply gu_map; [exact K|exact IHk|exact D|exact IH].
  - eexists. eapply gu_struct; eassumption.
  - eexists. eapply gu_other; eassumption.
Qed.
Lemma no_use sch rt ts n : (forall t, ~ go_use sch rt ts n t) <-> no_go_type sch ts n.
Proof. split; [|intros H t; apply H]. intros H rt' t U. destruct (use_runtime sch rt' rt _ _ _ U) as [t' U']. exact (H t' U'). Qed.

Section FILE.
Context (sch : schema) (m : model) (Hm : new_model sch = Ok m) (rt : bool).
Notation use := (go_use sch rt).
Local Opaque native_name native_effect native_type.
Lemma bad_iff n o ts : bad_field sch rt (n, o, ts) <-> bad_member sch n ts.
Proof. unfold bad_field, bad_member. cbn [fst snd]. rewrite no_use. tauto. Qed.

Lemma error_spec errors n : (In n errors <-> thrown sch n) -> exists es, emit_error errors n = each (decl_text timestamp_type decimal_type) es
  /\ error_method sch n es.
Proof.
  intros H. unfold emit_error. destruct (str_mem n errors) eqn:E.
  - apply str_mem_In in E. exists [GdError n]. split; [|left; split; [tauto|reflexivity]].
    cbn [each fold_right decl_text]. unfold line. change newline with nl. rewrite !append_assoc, append_nil_r. reflexivity.
  - exists []. split; [reflexivity|]. right. split; [|reflexivity]. intros T. apply H in T. apply str_mem_In in T. congruence.
Qed.
Lemma error_step st n es : error_method sch n es -> decl_step st st es.
Proof.
  intros [[_ ->]|[_ ->]]; apply gostep_refl; cbn.
  - intros (d & [<- |[]] & []).
  - intros (d & [<- |[]] & []).
  - intros p (d & [<- |[]] & N & _). inversion N as [d n' M| | | |]; subst. destruct M.
  - intros (d & [] & _).
  - intros (d & [] & _).
  - intros p (d & [] & _).
Qed.
Lemma note_step st n : decl_step st st [GdNote n].
Proof.
  apply gostep_refl; cbn.
  - intros (d & [<- |[]] & []).
  - intros (d & [<- |[]] & []).
  - intros p (d & [<- |[]] & N & _). inversion N as [d n' M| | | |]; subst. destruct M.
Qed.
Lemma struct_step st st' n gs : field_step st st' gs -> decl_step st st' [GdStruct n gs].
Proof.
  intros S. eapply field_decl; [exact S|intros t; cbn; tauto| |discriminate].
  intros p N. inversion N as [d k M| | | |]; subst. exists k. split; [exact M|reflexivity].
Qed.
Lemma fields_map (fs : list fielddef) gs : Forall2 (shown_field sch rt) (map struct_field fs) gs <-> fields_shown sch rt fs gs.
Proof.
  revert gs. induction fs as [|f fs IH]; intros gs; cbn [map].
  - split; intros H; inversion H; constructor.
  - split; intros H; inversion H as [|? g ? gs' Hg Ht]; subst; constructor; [exact Hg|now apply IH|exact Hg|now apply IH].
Qed.
Lemma struct_spec errors n fs st s st' : (In n errors <-> thrown sch n) -> emit_struct m rt errors n fs st = Ok (s, st') -> exists gs es,
  fields_shown sch rt fs gs /\ error_method sch n es /\ s = each (decl_text timestamp_type decimal_type) (GdStruct n gs :: es)
  /\ decl_step st st' (GdStruct n gs :: es).
Proof.
  intros He H. unfold emit_struct in H. apply rbind_Ok in H as ([t st1] & F & E).
  apply (fields_spec sch m Hm) in F as (gs & F & -> & S). destruct (error_spec errors n He) as (es & Ee & Me). exists gs, es.
  split; [apply fields_map; exact F|]. split; [exact Me|]. rewrite Ee in E. assert (st1 = st') by congruence. subst st1. split.
  - assert (X : s = "type " +++ n +++ " struct {" +++ nl +++ each field_text gs +++ "}" +++ nl +++ nl +++ each (decl_text timestamp_type decimal_type) es) by congruence.
    rewrite X. cbn [each fold_right decl_text]. fold (each (decl_text timestamp_type decimal_type) es). unfold line. change newline with nl.
    rewrite !append_assoc. reflexivity.
  - apply (decl_trans _ _ _ [GdStruct n gs] es (struct_step _ _ n gs S)). apply (error_step _ _ _ Me).
Qed.
Lemma plain_struct_spec n fs st s st' : emit_struct m rt [] n fs st = Ok (s, st') -> exists gs,
  fields_shown sch rt fs gs /\ s = decl_text timestamp_type decimal_type (GdStruct n gs) /\ decl_step st st' [GdStruct n gs].
Proof.
  intros H. unfold emit_struct in H. apply rbind_Ok in H as ([t st1] & F & E).
  apply (fields_spec sch m Hm) in F as (gs & F & -> & S). exists gs. split; [apply fields_map; exact F|].
  assert (st1 = st') by congruence. subst st1. split; [|apply struct_step; exact S].
  assert (X : s = "type " +++ n +++ " struct {" +++ nl +++ each field_text gs +++ "}" +++ nl +++ nl +++ "") by (cbn [emit_error str_mem] in E; congruence).
  rewrite X. cbn [decl_text]. unfold line. change newline with nl. rewrite !append_assoc, append_nil_r. reflexivity.
Qed.
Lemma variants_map (vs : list variantdef) gs : Forall2 (shown_field sch rt) (map union_field vs) gs <-> variants_shown sch rt vs gs.
Proof.
  revert gs. induction vs as [|f fs IH]; intros gs; cbn [map].
  - split; intros H; inversion H; constructor.
  - split; intros H; inversion H as [|? g ? gs' Hg Ht]; subst; constructor; [exact Hg|now apply IH|exact Hg|now apply IH].
Qed.
Lemma union_spec errors n vs st s st' : (In n errors <-> thrown sch n) -> emit_union m rt errors n vs st = Ok (s, st') -> exists tags gs es,
  Forall2 (fun v t => large_first (uv_name v) t) vs tags
  /\ variants_shown sch rt vs gs /\ error_method sch n es /\ s = each (decl_text timestamp_type decimal_type) (GdUnion n tags gs :: es)
  /\ decl_step st st' (GdUnion n tags gs :: es).
Proof.
  intros He H. unfold emit_union in H. apply rbind_Ok in H as ([t st1] & F & E).
  apply (fields_spec sch m Hm) in F as (gs & F & -> & S). destruct (error_spec errors n He) as (es & Ee & Me).
  exists (map (fun v : variantdef => capitalize (uv_name v)) vs), gs, es.
  split; [clear; induction vs as [|v vs IH]; cbn [map]; constructor; [apply large_first_iff; reflexivity|exact IH]|].
  split; [apply variants_map; exact F|]. split; [exact Me|]. rewrite Ee, concat_each in E. assert (st1 = st') by congruence. subst st1. split.
  - set (u := each (fun v : variantdef => "    " +++ (n +++ "VariantTag") +++ capitalize (uv_name v) +++ nl) vs) in *.
    assert (Eu : u = each (fun t => line ("    " +++ (n +++ "VariantTag") +++ t)) (map (fun v : variantdef => capitalize (uv_name v)) vs)).
    { unfold u. clear. induction vs as [|v vs IH]; [reflexivity|]. cbn [map each fold_right] in *. unfold each in IH. rewrite IH. unfold line. change newline with nl. rewrite !append_assoc. reflexivity. }
    clearbody u. assert (X := ok_fst E). rewrite <- X, Eu. cbn [each fold_right decl_text]. fold (each (decl_text timestamp_type decimal_type) es).
    unfold line. change newline with nl. rewrite !append_assoc. reflexivity.
  - apply (decl_trans st st' st' [GdUnion n (map (fun v : variantdef => capitalize (uv_name v)) vs) gs] es); [|apply (error_step _ _ _ Me)]. eapply field_decl; [exact S|intros t; cbn; tauto| |discriminate].
    intros p N. inversion N as [d k M| | | |]; subst. exists k. split; [exact M|reflexivity].
Qed.
Lemma enum_value_spec e : symbol_shown e (ee_symbol e, enum_value e).
Proof.
  split; [reflexivity|]. cbn [snd]. unfold enum_value, get_annotation.
  assert (A : forall v, assoc "x_enumValue" (ee_annos e) = Some v -> exists a b, ee_annos e = a ++ ("x_enumValue", v) :: b /\ ~ In "x_enumValue" (map fst a)).
  { generalize (ee_annos e). intros l. induction l as [|[k w] l IH]; intros v; cbn [assoc]; [discriminate|]. destruct ("x_enumValue" =?s k) eqn:K.
    - apply seqb_eq in K. subst k. intros H. exists [], l. split; [cbn [app]; congruence|intros []].
    - intros H. destruct (IH v H) as (a & b & -> & N). exists ((k, w) :: a), b. split; [reflexivity|]. intros [C|C]; [|exact (N C)]. apply seqb_neq in K. cbn in C. congruence. }
  destruct (assoc "x_enumValue" (ee_annos e)) as [v|] eqn:G.
  - left. destruct (A v eq_refl) as (a & b & H & N). exists a, b, v. split; [exact H|]. split; [exact N|]. destruct (v =?s "") eqn:E.
    + apply seqb_eq in E. right. auto.
    + left. split; [now apply seqb_neq|]. rewrite E. reflexivity.
  - right. split; [|reflexivity]. apply assoc_None. exact G.
Qed.
Lemma enum_text n es : emit_enum n es = decl_text timestamp_type decimal_type (GdEnum n (map (fun e => (ee_symbol e, enum_value e)) es)).
Proof.
  unfold emit_enum. rewrite !concat_each. cbn [decl_text].
  assert (A : each (fun e => nl +++ "    " +++ ee_symbol e) es +++ nl = nl +++ each (fun e => line ("    " +++ fst e)) (map (fun e => (ee_symbol e, enum_value e)) es)).
  { clear. induction es as [|e es IH]; [reflexivity|]. cbn [map each fold_right] in *. unfold each in IH. unfold line in *. change newline with nl in *. cbn [fst].
    rewrite !append_assoc in *. rewrite IH. reflexivity. }
  assert (B : each (fun e => nl +++ "    " +++ ee_symbol e +++ ": """ +++ enum_value e +++ """,") es +++ nl
    = nl +++ each (fun e => line ("    " +++ fst e +++ ": """ +++ snd e +++ """,")) (map (fun e => (ee_symbol e, enum_value e)) es)).
  { clear. induction es as [|e es IH]; [reflexivity|]. cbn [map each fold_right] in *. unfold each in IH. unfold line in *. change newline with nl in *. cbn [fst snd].
    rewrite !append_assoc in *. rewrite IH. reflexivity. }
  set (a := each (fun e => nl +++ "    " +++ ee_symbol e) es) in *. set (b := each (fun e => nl +++ "    " +++ ee_symbol e +++ ": """ +++ enum_value e +++ """,") es) in *.
  set (a' := each (fun e => line ("    " +++ fst e)) (map (fun e => (ee_symbol e, enum_value e)) es)) in *.
  set (b' := each (fun e => line ("    " +++ fst e +++ ": """ +++ snd e +++ """,")) (map (fun e => (ee_symbol e, enum_value e)) es)) in *.
  clearbody a b a' b'. unfold line. change newline with nl. rewrite !append_assoc.
  rewrite <- (append_assoc a nl), A. rewrite <- (append_assoc b nl), B. rewrite !append_assoc. reflexivity.
Qed.
Notation text := (decl_text timestamp_type decimal_type).
Lemma each_cons {A} (f : A -> string) x l : each f (x :: l) = f x +++ each f l.
Proof. reflexivity. Qed.
Lemma type_decl_step st st' n t u : gostep st st' (type_mentions t) (lib_import t) -> decl_step st st' [GdType n t u].
Proof.
  intros S. eapply gostep_ext; [exact S| | |].
  - split; [intros M; eexists; split; [now left|exact M]|intros (d & [<- |[]] & M); exact M].
  - split; [intros M; eexists; split; [now left|exact M]|intros (d & [<- |[]] & M); exact M].
  - intros p. split.
    + intros [-> (k & M)]. eexists. split; [now left|]. split; [exact (nd_sadl (GdType n t u) k M)|discriminate].
    + intros (d & [<- |[]] & N & _). inversion N as [d k M| | | |]; subst. split; [reflexivity|]. exists k. exact M.
Qed.
Lemma set_dec_step st n : decl_step st (set_dec st) [GdType n (GNamed "Decimal") false].
Proof.
  apply type_decl_step. split; [cbn; intuition (try discriminate; congruence)|]. split; [cbn; tauto|]. split; [|auto]. intros p. cbn [set_dec go_imports].
  split; [auto|]. intros [J|[_ (k & [M|[]])]]; [exact J|discriminate].
Qed.
Lemma plain_step st d : (forall t, ~ decl_mentions d t) -> (forall p, ~ brings d p) -> decl_step st st [d].
Proof. intros M B. apply gostep_refl; [intros (e & [<- |[]] & H); exact (M _ H)|intros (e & [<- |[]] & H); exact (M _ H)|intros p (e & [<- |[]] & H); exact (B _ H)]. Qed.
Lemma enum_step st n l : decl_step st st [GdEnum n l].
Proof. apply plain_step; [intros t []|]. intros p [_ H]. exact (H n l eq_refl). Qed.
Lemma number_step st n t : decl_step st (add_import "strconv" st) [GdNumber n t].
Proof.
  apply import_step; [intros (d & [<- |[]] & [])|intros (d & [<- |[]] & [])|]. intros q. split.
  - intros (d & [<- |[]] & N & _). inversion N as [d k M| | | |]; subst; [destruct M|reflexivity].
  - intros ->. eexists. split; [now left|]. split; [constructor|discriminate].
Qed.
Lemma basic_number t : str_mem t number_names = true -> exists g, In (t, g) go_basic /\ t <> "Bool" /\ t <> "String" /\ uncapitalize t = type_text g.
Proof.
  intros H. apply str_mem_In in H. cbn in H.
  repeat (destruct H as [<- |H]; [eexists; split; [cbn; tauto|]; split; [discriminate|]; split; [discriminate|reflexivity]|]). destruct H.
Qed.
Lemma string_step st n u : decl_step st st [GdType n GString u].
Proof. apply type_decl_step. apply gostep_refl; [cbn; intuition discriminate|cbn; intuition discriminate|]. intros p [_ (k & M)]. cbn in M. intuition discriminate. Qed.

Lemma body_spec errors td st s st' : (forall n, In n errors <-> thrown sch n) -> emit_body m rt errors td st = Ok (s, st') -> exists ds,
  type_shown sch rt td (GdNote (td_name td) :: ds) /\ s = each text ds /\ decl_step st st' ds.
Proof.
  intros He H. unfold emit_body in H. set (n := td_name td) in *. set (ts := td_spec td) in *.
  destruct (ts_type ts =?s "Struct") eqn:K1; [apply seqb_eq in K1|].
  { apply struct_spec in H as (gs & es & F & M & E & S); [|apply He]. exists (GdStruct n gs :: es). split; [now constructor|]. auto. }
  destruct (ts_type ts =?s "Union") eqn:K2; [apply seqb_eq in K2|].
  { apply union_spec in H as (tags & gs & es & T & F & M & E & S); [|apply He]. exists (GdUnion n tags gs :: es). split; [now constructor|]. auto. }
  destruct (ts_type ts =?s "Enum") eqn:K3; [apply seqb_eq in K3|].
  { exists [GdEnum n (map (fun e => (ee_symbol e, enum_value e)) (ts_elements ts))].
    assert (st' = st) by congruence. subst st'. split; [|split].
    - constructor; [exact K3|]. fold ts. clear. induction (ts_elements ts) as [|e l IH]; cbn [map]; constructor; [apply enum_value_spec|exact IH].
    - assert (X := ok_fst H). rewrite <- X, enum_text, each_cons. cbn [each fold_right]. now rewrite append_nil_r.
    - apply enum_step. }
  destruct (ts_type ts =?s "String") eqn:K4; [apply seqb_eq in K4|].
  { exists [GdType n GString false]. assert (st' = st) by congruence. subst st'. split; [now constructor|]. split; [|apply string_step].
    rewrite <- (ok_fst H), each_cons. cbn [each fold_right decl_text type_text]. unfold line. change newline with nl. rewrite !append_assoc. reflexivity. }
  destruct (ts_type ts =?s "UUID") eqn:K5; [apply seqb_eq in K5|].
  { exists [GdType n GString true]. assert (st' = st) by congruence. subst st'. split; [now constructor|]. split; [|apply string_step].
    rewrite <- (ok_fst H), each_cons. cbn [each fold_right decl_text type_text]. unfold line. change newline with nl. rewrite !append_assoc. reflexivity. }
  destruct (ts_type ts =?s "Decimal") eqn:K6; [apply seqb_eq in K6|].
  { exists [GdType n (GNamed "Decimal") false]. assert (st' = set_dec st) by congruence. subst st'. split; [now constructor|]. split; [|apply set_dec_step].
    rewrite <- (ok_fst H), each_cons. cbn [each fold_right decl_text type_text]. unfold line. change newline with nl. rewrite !append_assoc. reflexivity. }
  destruct (ts_type ts =?s "Array") eqn:K7; [apply seqb_eq in K7|].
  { apply rbind_Ok in H as ([i st1] & N & E). apply (native_name_spec sch m Hm) in N as (t & U & -> & S). exists [GdType n (GSlice t) false].
    assert (st' = st1) by congruence. subst st1. split; [now constructor|]. split.
    - rewrite <- (ok_fst E), each_cons. cbn [each fold_right decl_text type_text]. unfold line. change newline with nl. rewrite !append_assoc. reflexivity.
    - apply type_decl_step. eapply gostep_ext; [exact S|cbn; intuition discriminate|cbn; intuition discriminate|].
      intros p. unfold lib_import. split; (intros [-> (k & M)]; split; [reflexivity|]; exists k); [cbn; auto|cbn in M; destruct M; [discriminate|assumption]]. }
  destruct (ts_type ts =?s "Map") eqn:K8; [apply seqb_eq in K8|].
  { apply rbind_Ok in H as ([k st1] & N & H). apply (native_name_spec sch m Hm) in N as (kt & U & -> & S).
    apply rbind_Ok in H as ([i st2] & N & E). apply (native_name_spec sch m Hm) in N as (t & V & -> & S'). exists [GdType n (GMap kt t) false].
    assert (st' = st2) by congruence. subst st2. split; [now constructor|]. split.
    - rewrite <- (ok_fst E), each_cons. cbn [each fold_right decl_text type_text]. unfold line. change newline with nl. rewrite !append_assoc. reflexivity.
    - apply type_decl_step. eapply gostep_ext; [eapply gostep_trans; [exact S|exact S']|cbn; intuition discriminate|cbn; intuition discriminate|].
      intros p. unfold lib_import. split.
      + intros [[-> (j & M)]|[-> (j & M)]]; (split; [reflexivity|]; exists j; cbn; auto).
      + intros [-> (j & M)]. cbn in M. destruct M as [M|[M|M]]; [discriminate|left; eauto|right; eauto]. }
  destruct (str_mem (ts_type ts) number_names) eqn:K9; [|discriminate].
  destruct (basic_number _ K9) as (g & I & NB & NS & E). exists [GdNumber n g]. assert (st' = add_import "strconv" st) by congruence. subst st'.
  split; [now constructor|]. split; [|apply number_step].
  rewrite <- (ok_fst H), E, each_cons. cbn [each fold_right decl_text]. unfold line, indent, tab. change newline with nl. rewrite !append_assoc, append_nil_r. reflexivity.
Qed.
Lemma type_spec errors td st s st' : (forall n, In n errors <-> thrown sch n) -> emit_type m rt errors td st = Ok (s, st') -> exists ds,
  type_shown sch rt td ds /\ s = each text ds /\ decl_step st st' ds.
Proof.
  intros He H. unfold emit_type in H. apply rbind_Ok in H as ([b st1] & B & E). apply body_spec in B as (ds & T & -> & S); [|exact He].
  assert (st1 = st') by congruence. subst st1. exists (GdNote (td_name td) :: ds). split; [exact T|]. split.
  - rewrite <- (ok_fst E), each_cons. cbn [decl_text]. unfold line. change newline with nl. rewrite !append_assoc. reflexivity.
  - apply (decl_trans st st st' [GdNote (td_name td)] ds); [apply note_step|exact S].
Qed.
Lemma action_spec h st s st' : emit_action m rt h st = Ok (s, st') -> exists ds,
  action_types sch rt h ds /\ s = each text ds /\ decl_step st st' ds.
Proof.
  intros H. unfold emit_action in H. apply rbind_Ok in H as (c & C & H). apply go_capitalize_spec in C as [NE L].
  apply rbind_Ok in H as ([q st1] & Q & H). apply plain_struct_spec in Q as (qs & FQ & -> & SQ). destruct (h_expected h) as [x|] eqn:X; [|discriminate].
  apply rbind_Ok in H as ([p st2] & P & E). apply plain_struct_spec in P as (ps & FP & -> & SP). assert (st' = st2) by congruence. subst st2.
  eexists. split; [eapply at_both; eassumption|]. split.
  - rewrite <- (ok_fst E), !each_cons. cbn [each fold_right]. now rewrite append_nil_r.
  - exact (decl_trans _ _ _ _ _ SQ SP).
Qed.
Lemma all_spec {A} (f : A -> gost -> result unit (string * gost)) (P : A -> list godecl -> Prop) :
  (forall x st s st', f x st = Ok (s, st') -> exists ds, P x ds /\ s = each text ds /\ decl_step st st' ds) ->
  forall l st s st', emit_all f l st = Ok (s, st') -> exists dss, Forall2 P l dss /\ s = each text (concat dss) /\ decl_step st st' (concat dss).
Proof.
  intros Hf. induction l as [|x l IH]; intros st s st' H; cbn [emit_all] in H.
  - exists []. split; [constructor|]. split; [symmetry; exact (ok_fst H)|]. assert (st' = st) by congruence. subst st'.
    apply gostep_refl; [intros (d & [] & _)|intros (d & [] & _)|intros p (d & [] & _)].
  - apply rbind_Ok in H as ([s1 st1] & F & H). apply rbind_Ok in H as ([s2 st2] & R & E). apply Hf in F as (ds & Px & -> & S1).
    apply IH in R as (dss & Pl & -> & S2). assert (st' = st2) by congruence. subst st2. exists (ds :: dss). split; [now constructor|]. cbn [concat]. split.
    + rewrite <- (ok_fst E), each_app. reflexivity.
    + exact (decl_trans _ _ _ _ _ S1 S2).
Qed.

(** signatures *)
Lemma signatures_spec hs : forall s, signatures hs = Ok s -> exists ms,
  Forall2 (fun h n => h_name h <> "" /\ large_first (h_name h) n) hs ms /\ s +++ nl = nl +++ each method_text ms.
Proof.
  induction hs as [|h hs IH]; intros s H; cbn [signatures] in H.
  - assert (s = "") by congruence. subst s. exists []. split; [constructor|reflexivity].
  - apply rbind_Ok in H as (c & C & H). apply rbind_Ok in H as (r & R & E). apply go_capitalize_spec in C as C'. apply IH in R as (ms & F & X).
    exists (c :: ms). split; [now constructor|]. remember (nl +++ "    " +++ c +++ "(req *" +++ c +++ "Request) (*" +++ c +++ "Response, error)" +++ r) as z eqn:Z.
    assert (s = z) by congruence. subst s z. rewrite each_cons. unfold method_text at 1, line. change newline with nl. rewrite !append_assoc, X. reflexivity.
Qed.
Lemma interface_spec service hs s : emit_interface service hs = Ok s -> exists ms,
  Forall2 (fun h n => h_name h <> "" /\ large_first (h_name h) n) hs ms /\ s = text (GdInterface service ms).
Proof.
  unfold emit_interface. intros H. apply rbind_Ok in H as (g & G & E). apply signatures_spec in G as (ms & F & X). exists ms. split; [exact F|].
  cbn [decl_text]. remember (nl +++ "//" +++ nl +++ "// " +++ service +++ " is the interface that the service implementation must conform to" +++ nl +++ "//" +++ nl
      +++ "type " +++ service +++ " interface {" +++ g +++ nl +++ "}" +++ nl +++ nl) as z eqn:Z. assert (s = z) by congruence. subst s z.
  rewrite <- (append_assoc g nl), X. unfold line. change newline with nl. rewrite !append_assoc. reflexivity.
Qed.
Lemma errors_thrown n : In n (map xc_type (flat_map h_exceptions (sc_http sch))) <-> thrown sch n.
Proof.
  rewrite in_map_iff. split.
  - intros (e & E & I). apply in_flat_map in I as (h & I & J). exists h, e. auto.
  - intros (h & e & I & J & E). exists e. split; [exact E|]. apply in_flat_map. eauto.
Qed.
Lemma schema_same : m_schema m = sch.
Proof. apply new_model_inv in Hm. tauto. Qed.
Lemma defs_spec st s st' : emit_defs m rt st = Ok (s, st') -> exists acts types,
  Forall2 (action_types sch rt) (sc_http sch) acts /\ Forall2 (type_shown sch rt) (sc_types sch) types
  /\ s = each text (concat acts ++ concat types) /\ decl_step st st' (concat acts ++ concat types).
Proof.
  intros H. unfold emit_defs in H. rewrite schema_same in H. apply rbind_Ok in H as ([a st1] & A & H). apply rbind_Ok in H as ([b st2] & B & E).
  apply (all_spec _ (action_types sch rt)) in A as (acts & FA & -> & SA); [|intros h x y z; apply action_spec].
  apply (all_spec _ (type_shown sch rt)) in B as (types & FT & -> & ST); [|intros td x y z; apply type_spec; apply errors_thrown].
  assert (st' = st2) by congruence. subst st2. exists acts, types. split; [exact FA|]. split; [exact FT|]. split.
  - rewrite <- (ok_fst E), each_app. reflexivity.
  - exact (decl_trans _ _ _ _ _ SA ST).
Qed.
Lemma timestamp_step st : let st' := snd (emit_timestamp st) in go_dec st' = go_dec st
  /\ (forall p, In p (go_imports st') <-> In p (go_imports st) \/ brings GdTimestamp p) /\ (NoDup (go_imports st) -> NoDup (go_imports st')).
Proof.
  cbn [emit_timestamp snd add_import go_dec go_imports]. split; [reflexivity|]. split.
  - intros p. rewrite !adjoin_in. assert (X : brings GdTimestamp p <-> In p ["encoding/json"; "fmt"; "strings"; "time"]).
    { split; [intros [N _]; inversion N as [d k M| | | |]; subst; [destruct M|assumption]|intros I; split; [now constructor|discriminate]]. }
    rewrite X. cbn. intuition congruence.
  - intros N. now repeat apply adjoin_nodup.
Qed.
Lemma decimal_step st : let st' := snd (emit_decimal st) in
  (forall p, In p (go_imports st') <-> In p (go_imports st) \/ brings GdDecimal p) /\ (NoDup (go_imports st) -> NoDup (go_imports st')).
Proof.
  cbn [emit_decimal snd add_import go_dec go_imports]. split.
  - intros p. rewrite !adjoin_in. assert (X : brings GdDecimal p <-> In p ["encoding/json"; "fmt"; "math/big"]).
    { split; [intros [N _]; inversion N as [d k M| | | |]; subst; [destruct M|assumption]|intros I; split; [now constructor|discriminate]]. }
    rewrite X. cbn. intuition congruence.
  - intros N. now repeat apply adjoin_nodup.
Qed.
Lemma head_text pkg imports s : file_head pkg imports +++ s = line "//" +++ line "// Generated by sadl" +++ line "//" +++ line ("package " +++ pkg) +++ imports_text imports +++ s.
Proof.
  unfold file_head, imports_text, line. change newline with nl. destruct imports as [|p ps].
  - rewrite !append_assoc. reflexivity.
  - assert (E : String.concat "" (map (fun p => tab +++ """" +++ p +++ """" +++ nl) (p :: ps)) = each (fun p => (indent +++ """" +++ p +++ """") +++ nl) (p :: ps)).
    { rewrite concat_each. generalize (p :: ps). intros l. unfold each. induction l as [|q l IH]; [reflexivity|]. cbn [fold_right]. rewrite IH. unfold tab, indent. rewrite !append_assoc. reflexivity. }
    rewrite E. rewrite !append_assoc. reflexivity.
Qed.
Theorem file_spec service pkg s : create_model m rt service pkg = Ok s -> exists imports ds,
  s = file_text timestamp_type decimal_type pkg imports ds /\ file_shown sch rt service ds
  /\ NoDup imports /\ forall p, In p imports <-> exists d, In d ds /\ brings d p.
Proof.
  unfold create_model. rewrite schema_same. intros H. apply rbind_Ok in H as (i & I & H). apply interface_spec in I as (ms & FM & ->).
  apply rbind_Ok in H as ([d st] & D & H). apply defs_spec in D as (acts & types & FA & FT & -> & (S1 & S2 & S3 & S4)). cbn [go_time go_dec go_imports] in *.
  set (ds := concat acts ++ concat types) in *.
  assert (T1 : go_time st = true <-> exists e, In e ds /\ decl_mentions e (GNamed "Timestamp")) by (rewrite S1; split; [intros [C|C]; [discriminate|exact C]|auto]).
  assert (T2 : go_dec st = true <-> exists e, In e ds /\ decl_mentions e (GNamed "Decimal")) by (rewrite S2; split; [intros [C|C]; [discriminate|exact C]|auto]).
  assert (T3 : forall p, In p (go_imports st) <-> exists d, In d ds /\ brings d p) by (intros p; rewrite S3; cbn; tauto).
  assert (T4 : NoDup (go_imports st)) by (apply S4; constructor). clear S1 S2 S3 S4.
  assert (BI : forall p, ~ brings (GdInterface service ms) p) by (intros p [N _]; inversion N as [d k M| | | |]; subst; destruct M).
  set (h1 := if go_time st then [GdTimestamp] else []). set (h2 := if go_dec st then [GdDecimal] else []).
  set (st1 := if go_time st then snd (emit_timestamp st) else st).
  set (st2 := if go_dec st then snd (emit_decimal st1) else st1).
  assert (E1 : (if go_time st then emit_timestamp st else ("", st)) = (each text h1, st1)).
  { unfold h1, st1. destruct (go_time st); [|reflexivity]. unfold emit_timestamp. cbn [each fold_right decl_text snd]. now rewrite append_nil_r. }
  assert (G1 : go_dec st1 = go_dec st) by (unfold st1; destruct (go_time st); [apply timestamp_step|reflexivity]).
  rewrite E1, G1 in H.
  assert (E2 : (if go_dec st then emit_decimal st1 else ("", st1)) = (each text h2, st2)).
  { unfold h2, st2. destruct (go_dec st); [|reflexivity]. unfold emit_decimal. cbn [each fold_right decl_text snd]. now rewrite append_nil_r. }
  rewrite E2 in H.
  assert (P1 : (forall p, In p (go_imports st1) <-> In p (go_imports st) \/ exists d, In d h1 /\ brings d p) /\ NoDup (go_imports st1)).
  { unfold st1, h1. destruct (timestamp_step st) as (_ & A & B). destruct (go_time st).
    - split; [|apply B; exact T4]. intros p. rewrite A. split; (intros [C|C]; [left; exact C|right]); [exists GdTimestamp; split; [now left|exact C]|destruct C as (e & [<- |[]] & C); exact C].
    - split; [|exact T4]. intros p. split; [auto|]. intros [C|(e & [] & _)]. exact C. }
  assert (P2 : (forall p, In p (go_imports st2) <-> In p (go_imports st1) \/ exists d, In d h2 /\ brings d p) /\ NoDup (go_imports st2)).
  { unfold st2, h2. destruct (decimal_step st1) as (A & B). destruct (go_dec st).
    - split; [|apply B; apply P1]. intros p. rewrite A. split; (intros [C|C]; [left; exact C|right]); [exists GdDecimal; split; [now left|exact C]|destruct C as (e & [<- |[]] & C); exact C].
    - split; [|apply P1]. intros p. split; [auto|]. intros [C|(e & [] & _)]. exact C. }
  clearbody st1 st2. destruct P1 as [P1 _]. destruct P2 as [P2 N2].
  exists (go_imports st2), (GdInterface service ms :: ds ++ h1 ++ h2). split; [|split; [|split; [exact N2|]]].
  - remember (file_head pkg (go_imports st2) +++ text (GdInterface service ms) +++ each text ds +++ each text h1 +++ each text h2) as z eqn:Z.
    assert (s = z) by congruence. subst s z. rewrite head_text. unfold file_text. rewrite each_cons, !each_app. reflexivity.
  - exists ms, acts, types, (h1 ++ h2). split; [unfold ds; now rewrite <- app_assoc|]. split; [exact FM|]. split; [exact FA|]. split; [exact FT|].
    fold ds. split; [|split].
    + intros e. rewrite in_app_iff, <- T1, <- T2. unfold h1, h2. destruct (go_time st), (go_dec st); cbn; intuition congruence.
    + unfold h1, h2. destruct (go_time st), (go_dec st); cbn; repeat constructor; cbn; intuition discriminate.
    + unfold h1, h2. intros a b E. destruct (go_time st), (go_dec st); cbn in E; repeat (destruct a as [|? a]; try discriminate); cbn in E; congruence.
  - intros p. rewrite P2, P1, T3. split.
    + intros [[(e & J & B)|(e & J & B)]|(e & J & B)]; exists e; (split; [right; rewrite !in_app_iff; auto|exact B]).
    + intros (e & [<- |J] & B); [destruct (BI p B)|]. rewrite !in_app_iff in J. destruct J as [J|[J|J]]; [left; left|left; right|right]; eauto.
Qed.

(** when there is no file *)
Local Notation bad := (bad_member sch).
Lemma fields_bad xs st : (emit_fields m rt xs st = Panic /\ exists n o ts, In (n, o, ts) xs /\ bad n ts)
  \/ ((exists s st', emit_fields m rt xs st = Ok (s, st')) /\ forall n o ts, In (n, o, ts) xs -> ~ bad n ts).
Proof.
  destruct (fields_total sch m Hm rt xs st) as [[E X]|(s & st' & E & X)].
  - left. split; [exact E|]. apply Exists_exists in X as ([[n o] ts] & I & B). apply bad_iff in B. eauto 6.
  - right. split; [eauto|]. intros n o ts I B. apply X. apply Exists_exists. exists (n, o, ts). split; [exact I|]. now apply bad_iff.
Qed.
Lemma struct_bad errors n fs st : (emit_struct m rt errors n fs st = Panic /\ exists f, In f fs /\ bad (fd_name f) (fd_spec f))
  \/ ((exists s st', emit_struct m rt errors n fs st = Ok (s, st')) /\ forall f, In f fs -> ~ bad (fd_name f) (fd_spec f)).
Proof.
  unfold emit_struct. destruct (fields_bad (map struct_field fs) st) as [[E (k & o & ts & I & B)]|[(s & st' & E) X]]; rewrite E; cbn [rbind].
  - left. split; [reflexivity|]. apply in_map_iff in I as (f & Ef & I). exists f. split; [exact I|]. unfold struct_field in Ef. injection Ef as <- _ <-. exact B.
  - right. split; [eauto|]. intros f I. apply (X _ (negb (fd_required f))). apply in_map_iff. exists f. auto.
Qed.
Lemma union_bad errors n vs st : (emit_union m rt errors n vs st = Panic /\ exists v, In v vs /\ bad (uv_name v) (uv_spec v))
  \/ ((exists s st', emit_union m rt errors n vs st = Ok (s, st')) /\ forall v, In v vs -> ~ bad (uv_name v) (uv_spec v)).
Proof.
  unfold emit_union. destruct (fields_bad (map union_field vs) st) as [[E (k & o & ts & I & B)]|[(s & st' & E) X]]; rewrite E; cbn [rbind].
  - left. split; [reflexivity|]. apply in_map_iff in I as (f & Ef & I). exists f. split; [exact I|]. unfold union_field in Ef. injection Ef as <- _ <-. exact B.
  - right. split; [eauto|]. intros f I. apply (X _ true). apply in_map_iff. exists f. auto.
Qed.
Lemma name_bad ts n st : (native_name m rt ts n st = Panic /\ no_go_type sch ts n)
  \/ ((exists s st', native_name m rt ts n st = Ok (s, st')) /\ ~ no_go_type sch ts n).
Proof.
  destruct (native_name_total sch m Hm rt ts n st) as [E|(s & st' & E)].
  - left. split; [exact E|]. apply (no_use sch rt). exact (proj1 (native_name_panic sch m Hm rt ts n st) E).
  - right. split; [eauto|]. intros X. apply (no_use sch rt) in X. apply (proj2 (native_name_panic sch m Hm rt ts n st)) in X. congruence.
Qed.
Inductive type_bad (td : typedef) : Prop :=
| tb_kind : ~ In (ts_type (td_spec td)) go_kinds -> type_bad td
| tb_field f : ts_type (td_spec td) = "Struct" -> In f (ts_fields (td_spec td)) -> bad (fd_name f) (fd_spec f) -> type_bad td
| tb_variant v : ts_type (td_spec td) = "Union" -> In v (ts_variants (td_spec td)) -> bad (uv_name v) (uv_spec v) -> type_bad td
| tb_items : In (ts_type (td_spec td)) ["Array"; "Map"] -> no_go_type sch (td_spec td) (ts_items (td_spec td)) -> type_bad td
| tb_keys : ts_type (td_spec td) = "Map" -> no_go_type sch (td_spec td) (ts_keys (td_spec td)) -> type_bad td.
Lemma type_total errors td st : (emit_type m rt errors td st = Panic /\ type_bad td) \/ ((exists s st', emit_type m rt errors td st = Ok (s, st')) /\ ~ type_bad td).
Proof.
  assert (X : (emit_body m rt errors td st = Panic /\ type_bad td) \/ ((exists s st', emit_body m rt errors td st = Ok (s, st')) /\ ~ type_bad td)).
  { assert (N : forall k, ts_type (td_spec td) = k -> In k go_kinds -> (k = "Struct" -> forall f, In f (ts_fields (td_spec td)) -> ~ bad (fd_name f) (fd_spec f)) ->
      (k = "Union" -> forall v, In v (ts_variants (td_spec td)) -> ~ bad (uv_name v) (uv_spec v)) ->
      (In k ["Array"; "Map"] -> ~ no_go_type sch (td_spec td) (ts_items (td_spec td))) -> (k = "Map" -> ~ no_go_type sch (td_spec td) (ts_keys (td_spec td))) -> ~ type_bad td).
    { intros k Hk I A B C D T. destruct T as [T|f T J V|v T J V|T J|T J]; rewrite Hk in T; [contradiction|exact (A T f J V)|exact (B T v J V)|exact (C T J)|exact (D T J)]. }
    assert (V : forall k, ts_type (td_spec td) = k -> In k go_kinds -> k <> "Struct" -> k <> "Union" -> ~ In k ["Array"; "Map"] -> ~ type_bad td).
    { intros k Hk I N1 N2 N3. apply (N k Hk I); [congruence|congruence|intros C; destruct (N3 C)|intros ->; destruct N3; cbn; tauto]. }
    unfold emit_body.
    destruct (ts_type (td_spec td) =?s "Struct") eqn:K1; [apply seqb_eq in K1|].
    { destruct (struct_bad errors (td_name td) (ts_fields (td_spec td)) st) as [[E (f & I & B)]|[O B]]; [left|right].
      - split; [exact E|]. eapply tb_field; eassumption.
      - split; [exact O|]. apply (N "Struct" K1); [cbn; tauto|intros _; exact B|discriminate|cbn; intuition discriminate|discriminate]. }
    destruct (ts_type (td_spec td) =?s "Union") eqn:K2; [apply seqb_eq in K2|].
    { destruct (union_bad errors (td_name td) (ts_variants (td_spec td)) st) as [[E (f & I & B)]|[O B]]; [left|right].
      - split; [exact E|]. eapply tb_variant; eassumption.
      - split; [exact O|]. apply (N "Union" K2); [cbn; tauto|discriminate|intros _; exact B|cbn; intuition discriminate|discriminate]. }
    destruct (ts_type (td_spec td) =?s "Enum") eqn:K3; [apply seqb_eq in K3; right; split; [eauto|]; apply (V "Enum" K3); [cbn; tauto|discriminate|discriminate|cbn; intuition discriminate]|].
    destruct (ts_type (td_spec td) =?s "String") eqn:K4; [apply seqb_eq in K4; right; split; [eauto|]; apply (V "String" K4); [cbn; tauto|discriminate|discriminate|cbn; intuition discriminate]|].
    destruct (ts_type (td_spec td) =?s "UUID") eqn:K5; [apply seqb_eq in K5; right; split; [eauto|]; apply (V "UUID" K5); [cbn; tauto|discriminate|discriminate|cbn; intuition discriminate]|].
    destruct (ts_type (td_spec td) =?s "Decimal") eqn:K6; [apply seqb_eq in K6; right; split; [eauto|]; apply (V "Decimal" K6); [cbn; tauto|discriminate|discriminate|cbn; intuition discriminate]|].
    destruct (ts_type (td_spec td) =?s "Array") eqn:K7; [apply seqb_eq in K7|].
    { destruct (name_bad (td_spec td) (ts_items (td_spec td)) st) as [[E B]|[(s & st' & E) B]]; rewrite E; cbn [rbind]; [left|right].
      - split; [reflexivity|]. apply tb_items; [rewrite K7; cbn; tauto|exact B].
      - split; [eauto|]. apply (N "Array" K7); [cbn; tauto|discriminate|discriminate|auto|discriminate]. }
    destruct (ts_type (td_spec td) =?s "Map") eqn:K8; [apply seqb_eq in K8|].
    { destruct (name_bad (td_spec td) (ts_keys (td_spec td)) st) as [[E B]|[(s & st' & E) B]]; rewrite E; cbn [rbind]; [left|].
      - split; [reflexivity|]. apply tb_keys; assumption.
      - destruct (name_bad (td_spec td) (ts_items (td_spec td)) st') as [[E' B']|[(s' & st'' & E') B']]; rewrite E'; cbn [rbind]; [left|right].
        + split; [reflexivity|]. apply tb_items; [rewrite K8; cbn; tauto|exact B'].
        + split; [eauto|]. apply (N "Map" K8); [cbn; tauto|discriminate|discriminate|auto|auto]. }
    destruct (str_mem (ts_type (td_spec td)) number_names) eqn:K9; [right|left].
    - split; [eauto|]. apply str_mem_In in K9. apply (V _ eq_refl); [cbn in K9; cbn; tauto| | |]; intros C; [rewrite C in K9|rewrite C in K9|cbn in C; destruct C as [C|[C|[]]]; rewrite <- C in K9]; cbn in K9; intuition discriminate.
    - split; [reflexivity|]. apply tb_kind. intros I. cbn in I. apply seqb_neq in K1, K2, K3, K4, K5, K6, K7, K8.
      repeat (destruct I as [I|I]; [first [congruence|rewrite <- I in K9; discriminate]|]). destruct I. }
  unfold emit_type. destruct X as [[E B]|[(s & st' & E) B]]; rewrite E; cbn [rbind]; [left|right]; split; eauto.
Qed.
Inductive action_bad (h : httpdef) : Prop :=
| ab_name : h_name h = "" -> action_bad h
| ab_input p : In p (h_inputs h) -> bad (fd_name (ps_field p)) (fd_spec (ps_field p)) -> action_bad h
| ab_expected : h_expected h = None -> action_bad h
| ab_output x p : h_expected h = Some x -> In p (xp_outputs x) -> bad (fd_name (ps_field p)) (fd_spec (ps_field p)) -> action_bad h.
Lemma action_total h st : (emit_action m rt h st = Panic /\ action_bad h) \/ ((exists s st', emit_action m rt h st = Ok (s, st')) /\ ~ action_bad h).
Proof.
  unfold emit_action. destruct (go_capitalize (h_name h)) as [c| | |] eqn:C; cbn [rbind]; try (destruct (h_name h); discriminate).
  2:{ left. apply go_capitalize_panic in C. split; [reflexivity|]. now apply ab_name. }
  apply go_capitalize_spec in C as [NE _].
  destruct (struct_bad [] (c +++ "Request") (map ps_field (h_inputs h)) st) as [[E (f & I & B)]|[(s & st' & E) X]]; rewrite E; cbn [rbind].
  { left. split; [reflexivity|]. apply in_map_iff in I as (p & <- & I). eapply ab_input; eassumption. }
  destruct (h_expected h) as [x|] eqn:Ex; [|left; split; [reflexivity|now apply ab_expected]].
  destruct (struct_bad [] (c +++ "Response") (map ps_field (xp_outputs x)) st') as [[E' (f & I & B)]|[(s' & st'' & E') X']]; rewrite E'; cbn [rbind].
  { left. split; [reflexivity|]. apply in_map_iff in I as (p & <- & I). eapply ab_output; eassumption. }
  right. split; [eauto|]. intros [T|p I B|T|y p T I B]; [contradiction|apply (X (ps_field p)); [now apply in_map|exact B]|congruence|].
  apply (X' (ps_field p)); [apply in_map; congruence|exact B].
Qed.
Lemma all_total {A} (f : A -> gost -> result unit (string * gost)) (P : A -> Prop) :
  (forall x st, (f x st = Panic /\ P x) \/ ((exists s st', f x st = Ok (s, st')) /\ ~ P x)) ->
  forall l st, (emit_all f l st = Panic /\ Exists P l) \/ ((exists s st', emit_all f l st = Ok (s, st')) /\ ~ Exists P l).
Proof.
  intros Hf. induction l as [|x l IH]; intros st; cbn [emit_all].
  - right. split; [eauto|]. intros X. inversion X.
  - destruct (Hf x st) as [[E B]|[(s & st' & E) B]]; rewrite E; cbn [rbind]; [left; split; [reflexivity|now left]|].
    destruct (IH st') as [[E' B']|[(s' & st'' & E') B']]; rewrite E'; cbn [rbind]; [left; split; [reflexivity|now right]|].
    right. split; [eauto|]. intros X. inversion X; subst; contradiction.
Qed.
Lemma signatures_total hs : (signatures hs = Panic /\ Exists (fun h => h_name h = "") hs) \/ (exists s, signatures hs = Ok s).
Proof.
  induction hs as [|h hs IH]; cbn [signatures]; [eauto|]. destruct (go_capitalize (h_name h)) as [c| | |] eqn:C; cbn [rbind]; try (destruct (h_name h); discriminate).
  - destruct IH as [[E B]|[s E]]; rewrite E; cbn [rbind]; [left; split; [reflexivity|now right]|right; eauto].
  - left. split; [reflexivity|]. left. now apply go_capitalize_panic.
Qed.
Theorem file_total service pkg : (create_model m rt service pkg = Panic /\ go_fails sch) \/ ((exists s, create_model m rt service pkg = Ok s) /\ ~ go_fails sch).
Proof.
  assert (GT : forall td, In td (sc_types sch) -> type_bad td -> go_fails sch).
  { intros td I [T|f T J V|v T J V|T J|T J]; [eapply gx_kind|eapply gx_field|eapply gx_variant|eapply gx_items|eapply gx_keys]; eassumption. }
  assert (GA : forall h, In h (sc_http sch) -> action_bad h -> go_fails sch).
  { intros h I [T|p J V|T|x p T J V]; [eapply gx_name|eapply gx_input|eapply gx_expected|eapply gx_output]; eassumption. }
  unfold create_model, emit_interface, emit_defs. rewrite schema_same.
  destruct (signatures_total (sc_http sch)) as [[E B]|[i E]]; rewrite E; cbn [rbind].
  { left. split; [reflexivity|]. apply Exists_exists in B as (h & I & B). eapply GA; [exact I|]. now apply ab_name. }
  destruct (all_total _ _ action_total (sc_http sch) (mkGo [] false false)) as [[E1 B1]|[(a & st1 & E1) B1]]; rewrite E1; cbn [rbind].
  { left. split; [reflexivity|]. apply Exists_exists in B1 as (h & I & B). eapply GA; eassumption. }
  destruct (all_total _ _ (type_total (map xc_type (flat_map h_exceptions (sc_http sch)))) (sc_types sch) st1) as [[E2 B2]|[(b & st2 & E2) B2]]; rewrite E2; cbn [rbind].
  { left. split; [reflexivity|]. apply Exists_exists in B2 as (td & I & B). eapply GT; eassumption. }
  right. split.
  - destruct (if go_time st2 then emit_timestamp st2 else ("", st2)) as [t st3]. destruct (if go_dec st3 then emit_decimal st3 else ("", st3)) as [u st4]. eauto.
  - intros X. destruct X as [h I T|h p I J V|h I T|h x p I T J V|td I T|td f I T J V|td v I T J V|td I T J|td I T J].
    + apply B1. apply Exists_exists. exists h. split; [exact I|]. now apply ab_name.
    + apply B1. apply Exists_exists. exists h. split; [exact I|]. eapply ab_input; eassumption.
    + apply B1. apply Exists_exists. exists h. split; [exact I|]. now apply ab_expected.
    + apply B1. apply Exists_exists. exists h. split; [exact I|]. eapply ab_output; eassumption.
    + apply B2. apply Exists_exists. exists td. split; [exact I|]. now apply tb_kind.
    + apply B2. apply Exists_exists. exists td. split; [exact I|]. eapply tb_field; eassumption.
    + apply B2. apply Exists_exists. exists td. split; [exact I|]. eapply tb_variant; eassumption.
    + apply B2. apply Exists_exists. exists td. split; [exact I|]. eapply tb_items; eassumption.
    + apply B2. apply Exists_exists. exists td. split; [exact I|]. eapply tb_keys; eassumption.
Qed.
End FILE.
