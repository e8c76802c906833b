(** A model written as GraphQL and read again. *)
From Coq Require Import Permutation.
From Verif Require Import GoStr Outcome Value Schema Scalars Model SpecModel ModelFacts ValidateFacts SpecPV SpecMisc MiscFacts SpecGen ReadFacts Graphql GraphqlFacts GraphqlImport SpecGraphql GraphqlRead.

Lemma comment_nil : comment_value (string_value None) = "". Proof. reflexivity. Qed.
Definition ref_spec (r : gref) : typespec :=
  match r with RName n => bare (convert_type_name n) [] [] "" [] | RList n => bare "Array" [] [] (convert_type_name n) [] end.
Definition def_type (d : gdef) : typedef :=
  match d with
  | DEnum n l => mkTD n "" [] (bare "Enum" [] (map (fun s => mkElt s "" []) l) "" [])
  | DType n l => mkTD n "" [] (bare "Struct" (map (fun x : string * string * gref * bool => let '(f, _, t, r) := x in mkField f "" [] r VNil (ref_spec t)) l) [] "" [])
  | DUnion n l => mkTD n "" [] (bare "Union" [] [] "" (map (fun t => mkVariant t "" [] (ts_of t)) l))
  end.
Lemma written_fields l : gql_fields (map (fun x : string * string * gref * bool => let '(f, _, t, r) := x in mkGField f None (if r then GNonNull (ref_type t) else ref_type t)) l)
  = Ok (map (fun x : string * string * gref * bool => let '(f, _, t, r) := x in mkField f "" [] r VNil (ref_spec t)) l).
Proof.
  induction l as [|[[[f c] t] r] l IH]; [reflexivity|]. cbn [map gql_fields gf_type gf_name gf_desc]. rewrite IH. destruct t as [n|n], r; reflexivity.
Qed.
Lemma written_types ds scalars : (forall s, In s scalars -> s = "Timestamp" \/ s = "UUID") -> gql_types [] (gql_doc ds scalars) = Ok (map def_type ds).
Proof.
  intros H. unfold gql_doc. induction ds as [|d ds IH]; cbn [map app].
  - induction scalars as [|s r IH]; [reflexivity|]. cbn [map gql_types]. assert (E : str_mem s ["Timestamp"; "UUID"] = true). { apply str_mem_In. destruct (H s (or_introl eq_refl)) as [-> | ->]; simpl; auto. }
    rewrite E. apply IH. intros x I. apply H. right. exact I.
  - destruct d as [n l|n l|n l]; cbn [defn_of gql_types str_mem existsb].
    + rewrite IH. cbn [rbind]. f_equal. f_equal. unfold gql_enum. cbn [def_type]. rewrite comment_nil, map_map. reflexivity.
    + unfold gql_struct. rewrite written_fields. cbn [rbind]. rewrite IH. reflexivity.
    + rewrite IH. reflexivity.
Qed.

Section Back.
Context (conf : scalar_conf) (sch : schema) (m : model).
Hypothesis Hm : new_model sch = Ok m.
Lemma scalar_back used n s used' : scalar_type conf used n = (s, used') -> s <> "" -> gql_scalar_back conf n (convert_type_name s).
Proof.
  unfold scalar_type. intros H N.
  destruct (n =?s "Bool") eqn:E1; [apply seqb_eq in E1; injection H as <- <-; subst; constructor|].
  destruct (n =?s "String") eqn:E2; [apply seqb_eq in E2; injection H as <- <-; subst; constructor|].
  assert (CU : forall d, In n ["UUID"; "Timestamp"; "Int64"; "Decimal"] -> custom_scalar conf used n d = (s, used') -> (s = d /\ conf n = "") \/ gql_scalar_back conf n (convert_type_name s)).
  { intros d I Q. unfold custom_scalar in Q. destruct (conf n =?s "") eqn:E; cbn [negb] in Q; injection Q as <- <-; [left; apply seqb_eq in E; auto|right]. apply seqb_neq in E. apply sb_custom; [exact I|exact E|apply conv_spec]. }
  destruct (str_mem n ["UUID"; "Timestamp"]) eqn:E3.
  { apply str_mem_In in E3. destruct (CU "String") as [[-> Z]|Z]; [simpl in *; tauto|exact H| |exact Z]. apply (sb_text conf n E3 Z). }
  destruct (str_mem n ["Int32"; "Int16"; "Int8"]) eqn:E4.
  { apply str_mem_In in E4. injection H as <- <-. apply sb_int. simpl in *; tauto. }
  destruct (str_mem n ["Float64"; "Float32"]) eqn:E5.
  { apply str_mem_In in E5. injection H as <- <-. apply sb_float. simpl in *; tauto. }
  destruct (str_mem n ["Int64"; "Decimal"]) eqn:E6.
  { apply str_mem_In in E6. destruct (CU "Float") as [[-> Z]|Z]; [simpl in *; tauto|exact H| |exact Z]. apply (sb_wide conf n E6 Z). }
  injection H as <- <-. contradiction.
Qed.
Lemma scalar_none used n used' : scalar_type conf used n = ("", used') -> ~ In n gql_scalars.
Proof. intros H. destruct (scalar_facts conf used n _ _ H) as (_ & [(_ & N & _)|[N _]]); [contradiction|exact N]. Qed.
Lemma scalar_not used n : ~ In n gql_scalars -> scalar_type conf used n = ("", used).
Proof.
  intros N. unfold scalar_type. destruct (n =?s "Bool") eqn:E1; [apply seqb_eq in E1; subst; exfalso; apply N; simpl; tauto|]. destruct (n =?s "String") eqn:E2; [apply seqb_eq in E2; subst; exfalso; apply N; simpl; tauto|].
  repeat match goal with |- context [str_mem n ?l] => let E := fresh "E" in destruct (str_mem n l) eqn:E; [apply str_mem_In in E; exfalso; apply N; simpl in *; tauto|] end. reflexivity.
Qed.
Lemma ref_back used ts r used' : type_ref conf m used ts = (r, used') -> gql_field_back conf sch ts (ref_spec r).
Proof.
  unfold type_ref. destruct (find_array m (ts_type ts)) as [a|] eqn:FA.
  - destruct (find_array_Some sch m Hm _ _ FA) as (Ia & Na & Ta). rewrite Ta. change (scalar_type conf used "Array") with ("", used). cbn [String.eqb Ascii.eqb Bool.eqb negb].
    change ("Array" =?s "Array") with true. cbv iota. intros H. injection H as <- <-. eapply fb_list_alias; [exact Ia|exact Na|exact Ta|apply conv_spec].
  - destruct (scalar_type conf used (ts_type ts)) as [s u] eqn:SC. destruct (s =?s "") eqn:E; cbn [negb].
    + apply seqb_eq in E. subst s. assert (NS := scalar_none _ _ _ SC). destruct (ts_type ts =?s "Array") eqn:EA.
      * apply seqb_eq in EA. intros H. injection H as <- <-. apply fb_list; [exact EA|apply conv_spec].
      * apply seqb_neq in EA. destruct (find_type m (ts_type ts)) as [td|] eqn:FT.
        -- destruct (proj1 (find_type_spec sch m Hm _ _) FT) as [[B ->]|[I N]].
           ++ assert (X : scalar_type conf u (ts_type (td_spec (mkTD (ts_type ts) "" [] (ts_of (ts_type ts))))) = ("", u)).
              { apply scalar_not. exact NS. }
              rewrite X. cbn [String.eqb negb]. intros H. injection H as <- <-. apply fb_name; [simpl in *; intuition congruence| |apply conv_spec].
              intros td I N. exfalso. destruct (proj2 (proj2 (new_model_iff sch)) m Hm) as (_ & NB & _). apply (NB td I). rewrite N. exact B.
           ++ destruct (scalar_type conf u (ts_type (td_spec td))) as [s' u'] eqn:SC'. destruct (s' =?s "") eqn:E'; cbn [negb]; intros H; injection H as <- <-.
              ** apply seqb_eq in E'. subst s'. apply fb_name; [simpl in *; intuition congruence| |apply conv_spec]. intros td' I' N' J. assert (td' = td).
                 { destruct (proj2 (proj2 (new_model_iff sch)) m Hm) as (ND & _). revert I I' ND. rewrite <- N in N'. clear - N'. intros I I' ND. induction (sc_types sch) as [|x l IH]; [destruct I|].
                   inversion ND; subst. destruct I as [<-|I], I' as [<-|I']; [reflexivity| | |auto]; exfalso; apply H1; apply in_map_iff; eexists; eauto. }
                 subst td'. destruct J as [J|J]; [|exact (scalar_none _ _ _ SC' J)]. apply (find_array_None sch m Hm _ _ FA I N). auto.
              ** apply seqb_neq in E'. eapply fb_scalar_alias; [exact I|exact N|]. eapply scalar_back; eassumption.
        -- intros H. injection H as <- <-. apply fb_name; [simpl in *; intuition congruence| |apply conv_spec]. intros td I N J.
           assert (Q : find_type m (ts_type ts) = Some td); [|congruence]. apply (find_type_spec sch m Hm). right. auto.
    + apply seqb_neq in E. intros H. injection H as <- <-. apply fb_scalar. eapply scalar_back; eassumption.
Qed.
Lemma fields_back fs : forall used l used', struct_fields conf m used fs = (l, used') ->
  Forall2 (fun f g => exists ts, gql_field_back conf sch (fd_spec f) ts /\ g = mkField (fd_name f) "" [] (fd_required f) VNil ts) fs
    (map (fun x : string * string * gref * bool => let '(f, _, t, r) := x in mkField f "" [] r VNil (ref_spec t)) l).
Proof.
  induction fs as [|f fs IH]; intros used l used' H; simpl in H; [injection H as <- <-; constructor|].
  destruct (type_ref conf m used (fd_spec f)) as [t u] eqn:T. destruct (struct_fields conf m u fs) as [l' u'] eqn:S. injection H as <- <-. cbn [map]. constructor; [|eapply IH; exact S].
  exists (ref_spec t). split; [eapply ref_back; exact T|reflexivity].
Qed.
Lemma defs_back tds : forall used ds used', gql_defs conf m used tds = Ok (ds, used') ->
  exists l, gql_defined tds l /\ Forall2 (gql_back conf sch) l (map def_type ds).
Proof.
  induction tds as [|td tds IH]; intros used ds used' H; cbn [gql_defs] in H; [injection H as <- <-; exists []; split; constructor|].
  destruct (ts_type (td_spec td) =?s "Enum") eqn:E1.
  { apply seqb_eq in E1. apply rbind_Ok in H. destruct H as ([l u] & H & Q). injection Q as <- <-. destruct (IH _ _ _ H) as (k & D & F). exists (td :: k). split; [apply gd_take; [rewrite E1; simpl; auto|exact D]|].
    cbn [map]. constructor; [|exact F]. cbn [def_type]. rewrite map_map. apply bk_enum. exact E1. }
  destruct (ts_type (td_spec td) =?s "Struct") eqn:E2.
  { apply seqb_eq in E2. destruct (struct_fields conf m used (ts_fields (td_spec td))) as [fs u0] eqn:SF. apply rbind_Ok in H. destruct H as ([l u] & H & Q). injection Q as <- <-.
    destruct (IH _ _ _ H) as (k & D & F). exists (td :: k). split; [apply gd_take; [rewrite E2; simpl; auto|exact D]|]. cbn [map]. constructor; [|exact F]. cbn [def_type]. apply bk_struct; [exact E2|]. eapply fields_back. exact SF. }
  destruct (ts_type (td_spec td) =?s "Union") eqn:E3.
  { apply seqb_eq in E3. apply rbind_Ok in H. destruct H as ([l u] & H & Q). injection Q as <- <-. destruct (IH _ _ _ H) as (k & D & F). exists (td :: k). split; [apply gd_take; [rewrite E3; simpl; auto|exact D]|].
    cbn [map]. constructor; [|exact F]. cbn [def_type]. rewrite map_map. apply bk_union. exact E3. }
  destruct (str_mem _ _) in H; [|discriminate]. destruct (IH _ _ _ H) as (k & D & F). exists k. split; [|exact F]. apply gd_skip; [|exact D]. apply seqb_neq in E1, E2, E3. simpl. intuition congruence.
Qed.
(** the custom scalars written are configured ones *)
Lemma custom_conf used n d s used' : In n ["UUID"; "Timestamp"; "Int64"; "Decimal"] -> custom_scalar conf used n d = (s, used') ->
  forall x, In x used' -> In x used \/ exists n, In n ["UUID"; "Timestamp"; "Int64"; "Decimal"] /\ conf n = x /\ x <> "".
Proof.
  intros I H x J. unfold custom_scalar in H. destruct (conf n =?s "") eqn:E; cbn [negb] in H; injection H as <- <-; [auto|]. apply seqb_neq in E.
  destruct (str_mem (conf n) used); [auto|]. apply in_app_iff in J. destruct J as [J|[<-|[]]]; [auto|right; exists n; auto].
Qed.
Definition from_conf (used used' : list string) : Prop :=
  forall x, In x used' -> In x used \/ exists n, In n ["UUID"; "Timestamp"; "Int64"; "Decimal"] /\ conf n = x /\ x <> "".
Lemma from_refl u : from_conf u u. Proof. intros x I. auto. Qed.
Lemma from_trans a b c : from_conf a b -> from_conf b c -> from_conf a c.
Proof. intros H K x I. destruct (K x I) as [J|J]; [exact (H x J)|auto]. Qed.
Lemma scalar_conf_only used n s used' : scalar_type conf used n = (s, used') -> from_conf used used'.
Proof.
  unfold scalar_type. intros H. destruct (n =?s "Bool"); [injection H as _ <-; apply from_refl|]. destruct (n =?s "String"); [injection H as _ <-; apply from_refl|].
  destruct (str_mem n ["UUID"; "Timestamp"]) eqn:E3; [apply str_mem_In in E3; exact (custom_conf _ n _ _ _ ltac:(simpl in *; tauto) H)|].
  destruct (str_mem n ["Int32"; "Int16"; "Int8"]); [injection H as _ <-; apply from_refl|]. destruct (str_mem n ["Float64"; "Float32"]); [injection H as _ <-; apply from_refl|].
  destruct (str_mem n ["Int64"; "Decimal"]) eqn:E6; [apply str_mem_In in E6; exact (custom_conf _ n _ _ _ ltac:(simpl in *; tauto) H)|]. injection H as _ <-. apply from_refl.
Qed.
Lemma ref_conf_only used ts r used' : type_ref conf m used ts = (r, used') -> from_conf used used'.
Proof.
  unfold type_ref. set (t := match find_array m (ts_type ts) with Some td => td_spec td | None => ts end). destruct (scalar_type conf used (ts_type t)) as [s u] eqn:SC. apply scalar_conf_only in SC.
  destruct (negb (s =?s "")); [intros H; injection H as _ <-; exact SC|]. destruct (ts_type t =?s "Array"); [intros H; injection H as _ <-; exact SC|].
  destruct (find_type m (ts_type t)) as [td|]; [|intros H; injection H as _ <-; exact SC]. destruct (scalar_type conf u (ts_type (td_spec td))) as [s' u'] eqn:SC'. apply scalar_conf_only in SC'.
  destruct (negb (s' =?s "")); intros H; injection H as _ <-; eapply from_trans; eassumption.
Qed.
Lemma fields_conf_only fs : forall used l used', struct_fields conf m used fs = (l, used') -> from_conf used used'.
Proof.
  induction fs as [|f fs IH]; intros used l used' H; simpl in H; [injection H as _ <-; apply from_refl|].
  destruct (type_ref conf m used (fd_spec f)) as [t u] eqn:T. destruct (struct_fields conf m u fs) as [l' u'] eqn:S. injection H as _ <-. eapply from_trans; [eapply ref_conf_only; exact T|eapply IH; exact S].
Qed.
Lemma defs_conf_only tds : forall used ds used', gql_defs conf m used tds = Ok (ds, used') -> from_conf used used'.
Proof.
  induction tds as [|td tds IH]; intros used ds used' H; cbn [gql_defs] in H; [injection H as _ <-; apply from_refl|].
  destruct (ts_type (td_spec td) =?s "Enum"); [apply rbind_Ok in H; destruct H as ([l u] & H & Q); injection Q as _ <-; eapply IH; exact H|].
  destruct (ts_type (td_spec td) =?s "Struct").
  { destruct (struct_fields conf m used (ts_fields (td_spec td))) as [fs u0] eqn:SF. apply rbind_Ok in H. destruct H as ([l u] & H & Q). injection Q as _ <-. eapply from_trans; [eapply fields_conf_only; exact SF|eapply IH; exact H]. }
  destruct (ts_type (td_spec td) =?s "Union"); [apply rbind_Ok in H; destruct H as ([l u] & H & Q); injection Q as _ <-; eapply IH; exact H|].
  destruct (str_mem _ _) in H; [|discriminate]. eapply IH; exact H.
Qed.

Lemma defined_names tds l : gql_defined tds l -> forall n, In n (map td_name l) -> In n (map td_name tds).
Proof. intros D. induction D as [|td r l H D IH|td r l H D IH]; simpl; intros n I; [exact I|destruct I as [<-|I]; auto|auto]. Qed.
Lemma defined_nodup tds l : gql_defined tds l -> NoDup (map td_name tds) -> NoDup (map td_name l).
Proof.
  intros D. induction D as [|td r l H D IH|td r l H D IH]; simpl; intros N; [constructor| |inversion N; auto]. inversion N as [|x y A B]; subst. constructor; [|auto]. intros I. apply A. exact (defined_names _ _ D _ I).
Qed.
Lemma back_names l l' : Forall2 (gql_back conf sch) l l' -> map td_name l' = map td_name l.
Proof. intros F. induction F as [|x y l l' H F IH]; [reflexivity|]. simpl. rewrite IH. destruct H; reflexivity. Qed.
Lemma round read parse name ns path ds scalars : gql_scalars_ok conf -> ~ In "ID" (map td_name (sc_types sch)) -> gql_export conf m = Ok (ds, scalars) ->
  read path = Some (gql_text ds scalars) -> parse (gql_text ds scalars) = Some (gql_doc ds scalars) ->
  exists m' l, gql_import read parse name ns [path] = Ok m' /\ gql_defined (sc_types sch) l
    /\ exists l', m_schema m' = whole name ns l' /\ Forall2 (gql_back conf sch) l l'.
Proof.
  intros SO NI EX RD PA. unfold gql_export in EX. rewrite (proj1 (new_model_inv _ _ Hm)) in EX. destruct (defs_back _ _ _ _ EX) as (l & D & F).
  assert (SC : forall s, In s scalars -> s = "Timestamp" \/ s = "UUID").
  { intros s I. destruct (defs_conf_only _ _ _ _ EX s I) as [[]|(n & J & E & NE)]. destruct (SO n J) as [Z|[Z|Z]]; [congruence|right; congruence|left; congruence]. }
  rewrite (import_doc read parse name ns path _ _ RD PA). unfold gql_schema. rewrite (written_types ds scalars SC). cbn [rbind]. change (mkSchema _ _ _ _ _ _ _ _ _ _ _) with (whole name ns (map def_type ds)).
  assert (CF : collision_free (whole name ns (map def_type ds))).
  { destruct (proj2 (proj2 (new_model_iff sch)) m Hm) as (ND & NB & _). assert (BN := back_names _ _ F). split; [|split; [|constructor]]; cbn [whole sc_types map].
    - rewrite BN. constructor; [|exact (defined_nodup _ _ D ND)]. intros I. apply NI. exact (defined_names _ _ D _ I).
    - intros td [<-|I]; [exact id_builtin|]. apply (in_map td_name) in I. rewrite BN in I. apply (defined_names _ _ D) in I. apply in_map_iff in I. destruct I as (td' & <- & I). apply NB. exact I. }
  destruct (proj1 (new_model_iff _) CF) as (m' & M). rewrite M. exists m', l. split; [reflexivity|]. split; [exact D|]. exists (map def_type ds). split; [exact (proj1 (new_model_inv _ _ M))|exact F].
Qed.
End Back.
