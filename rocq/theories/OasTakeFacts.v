(** Proofs about the examples taken over from an OpenAPI document. *)
From Verif Require Import GoStr Outcome Value Schema Misc Model OpenApi OpenApiImport OasTake SpecImport SpecPV PVFacts SpecOasTake OpenApiFacts ImportFacts ImportRead ImportData ImportRound.

Section Ind.
Context (P : oasx -> Prop) (H : forall h e i ps, (forall y, i = Some y -> P y) -> (forall l, ps = Some l -> forall f y, In (f, y) l -> P y) -> P (mkX h e i ps)).
Fixpoint oasx_ind' (x : oasx) : P x.
Proof.
  destruct x as [h e i ps]. apply H.
  - intros y E. destruct i as [z|]; [|discriminate]. injection E as <-. apply oasx_ind'.
  - intros l E. destruct ps as [k|]; [|discriminate]. injection E as <-. induction k as [|[g z] k IH]; intros f y I; [destruct I|].
    destruct I as [I|I]; [|exact (IH f y I)]. assert (Z : P z) by apply oasx_ind'. injection I as _ <-. exact Z.
Defined.
End Ind.
Lemma ref_none h : oas_type_ref h = "" <-> o_ref h = "" \/ o_ref h = ref_prefix.
Proof.
  unfold oas_type_ref. destruct (o_ref h =?s "") eqn:E; cbn [negb].
  - apply seqb_eq in E. tauto.
  - apply seqb_neq in E. destruct (has_prefix schema_prefix (o_ref h)) eqn:Pr.
    + apply has_prefix_spec in Pr. destruct Pr as [r Er]. rewrite Er. change (sdrop (String.length schema_prefix) (schema_prefix +++ r)) with r.
      split; [intros ->; right; reflexivity|]. intros [D|D]; [discriminate|]. change ref_prefix with (schema_prefix +++ "") in D. injection D as D. exact D.
    + split; [contradiction|]. intros [D|D]; [contradiction|]. rewrite D in Pr. discriminate.
Qed.
Lemma ref_some h t : t <> "" -> (oas_type_ref h = t <-> o_ref h = ref_prefix +++ t \/ ~ (exists r, o_ref h = ref_prefix +++ r) /\ t = o_ref h).
Proof.
  intros N. unfold oas_type_ref. destruct (o_ref h =?s "") eqn:E; cbn [negb].
  - apply seqb_eq in E. rewrite E. split; [intros D; destruct (N (eq_sym D))|]. intros [D|[_ D]]; [discriminate|contradiction].
  - destruct (has_prefix schema_prefix (o_ref h)) eqn:Pr.
    + apply has_prefix_spec in Pr. destruct Pr as [r Er]. rewrite Er. change (sdrop (String.length schema_prefix) (schema_prefix +++ r)) with r.
      split; [intros ->; left; reflexivity|]. intros [D|[D _]]; [injection D as D; exact D|]. destruct D. exists r. reflexivity.
    + split.
      * intros <-. right. split; [|reflexivity]. intros [r Er]. rewrite Er in Pr. discriminate.
      * intros [D|[_ D]]; [rewrite D in Pr; discriminate|symmetry; exact D].
Qed.
Lemma join_step n f l : join "." ((n +++ "." +++ f) :: l) = join "." (n :: f :: l).
Proof. destruct l as [|x l]; [reflexivity|]. cbn [join]. rewrite !append_assoc. reflexivity. Qed.
Definition ex_of (t : string) (v : value) : exampledef := mkEx t "" v "" [].
Lemma collect_spec x : forall n e, In e (collect n x) <-> exists l v, carries x l v /\ e = ex_of (join "." (n :: l)) v.
Proof.
  induction x as [h ex i ps HI HP] using oasx_ind'. intros n e. cbn [collect]. rewrite in_app_iff.
  assert (Here : In e (match ex with Some v => [mkEx n "" v "" []] | None => [] end) <-> exists v, ex = Some v /\ e = ex_of n v).
  { destruct ex as [v|]; cbn [In]; split.
    - intros [<-|[]]. exists v. split; reflexivity.
    - intros (w & D & ->). injection D as <-. left. reflexivity.
    - intros [].
    - intros (w & D & _). discriminate. }
  rewrite Here. clear Here. split.
  - intros [(v & -> & ->)|I]; [exists [], v; split; [constructor|reflexivity]|].
    destruct (o_type h =?s "array") eqn:A.
    + apply seqb_eq in A. destruct i as [y|]; [|destruct I]. destruct (o_ref (x_head y) =?s "") eqn:R; cbn [negb] in I; [|destruct I].
      apply seqb_eq in R. apply (HI y eq_refl) in I. destruct I as (l & v & C & ->). exists ("Items" :: l), v. split; [apply ca_item; assumption|].
      f_equal. change ".Items" with ("." +++ "Items"). apply join_step.
    + destruct ((o_type h =?s "") || (o_type h =?s "object"))%bool eqn:O; [|destruct I]. destruct ps as [k|]; [|destruct I].
      apply in_flat_map in I. destruct I as ((f & y) & If & I). cbn [fst snd] in I. destruct (oas_type_ref (x_head y) =?s "") eqn:R; cbn [negb] in I; [|destruct I].
      apply seqb_eq in R. apply (HP k eq_refl f y If) in I. destruct I as (l & v & C & ->). exists (f :: l), v.
      split; [|f_equal; apply join_step]. apply ca_prop with y; [|exact If|apply ref_none; exact R|exact C].
      apply orb_true_iff in O. destruct O as [O|O]; apply seqb_eq in O; tauto.
  - intros (l & v & C & ->). inversion C as [h0 v0 i0 ps0|h0 e0 y ps0 l0 v0 T R C'|h0 e0 i0 ps0 f y l0 v0 T If R C']; subst.
    + left. exists v. split; reflexivity.
    + right. rewrite T. cbn [String.eqb]. change ("array" =?s "array") with true. cbv iota. rewrite R. change (negb ("" =?s "")) with false. cbv iota.
      apply (HI y eq_refl). exists l0, v. split; [exact C'|]. f_equal. change ".Items" with ("." +++ "Items"). symmetry. apply join_step.
    + right. assert (A : (o_type h =?s "array") = false) by (destruct T as [-> | ->]; reflexivity). rewrite A.
      assert (O : ((o_type h =?s "") || (o_type h =?s "object"))%bool = true) by (destruct T as [-> | ->]; reflexivity). rewrite O.
      apply in_flat_map. exists (f, y). split; [exact If|]. cbn [fst snd]. apply ref_none in R. rewrite R. change (negb ("" =?s "")) with false. cbv iota.
      apply (HP ps0 eq_refl f y If). exists l0, v. split; [exact C'|]. f_equal. symmetry. apply join_step.
Qed.
Lemma get_first {A} t (y : A) all : get t all = Some y <-> exists a b, all = a ++ (t, y) :: b /\ forall z, ~ In (t, z) a.
Proof.
  induction all as [|[k z] all IH]; cbn [get].
  - split; [discriminate|]. intros ([|? ?] & b & D & _); discriminate.
  - destruct (t =?s k) eqn:E.
    + apply seqb_eq in E. subst k. split.
      * intros D. injection D as ->. exists [], all. split; [reflexivity|]. intros z' [].
      * intros (a & b & D & N). destruct a as [|[k' z'] a]; [injection D as ->; reflexivity|]. injection D as <- <- _. destruct (N z (or_introl eq_refl)).
    + apply seqb_neq in E. rewrite IH. split.
      * intros (a & b & -> & N). exists ((k, z) :: a), b. split; [reflexivity|]. intros z' [D|I]; [injection D as D _; congruence|exact (N z' I)].
      * intros (a & b & D & N). destruct a as [|[k' z'] a]; [injection D as D _; congruence|]. injection D as _ _ D. exists a, b. split; [exact D|]. intros z0 I. exact (N z0 (or_intror I)).
Qed.
Theorem import_examples_spec all : forall ss es, import_examples all ss = Ok es ->
  forall e, In e es <-> exists n x t y l v, In (n, x) ss /\ def_kept n (x_head x) /\ stands_for all n x t y /\ carries y l v /\ e = ex_of (join "." (t :: l)) v.
Proof.
  induction ss as [|[n x] ss IH]; intros es H e; cbn [import_examples] in H.
  - injection H as <-. split; [intros []|]. intros (? & ? & ? & ? & ? & ? & [] & _).
  - destruct (valid_sadl_name n (x_head x) =?s "") eqn:V.
    + rewrite (IH es H e). split; intros (n' & x' & t & y & l & v & I & K & R); exists n', x', t, y, l, v.
      * split; [right; exact I|]. split; [exact K|exact R].
      * destruct I as [I|I]; [injection I as <- <-; apply kept_spec in K; destruct K as [K _]; rewrite V in K; discriminate|]. split; [exact I|]. split; [exact K|exact R].
    + assert (K : def_kept n (x_head x)).
      { apply kept_spec. split; [exact V|]. clear -V. unfold valid_sadl_name in *. destruct (n =?s "Timestamp"); [destruct (o_type (x_head x) =?s "string"); [discriminate|reflexivity]|].
        destruct (n =?s "Decimal"); [discriminate|reflexivity]. }
      pose proof K as K'. apply kept_spec in K'. destruct K' as [_ Vn]. rewrite Vn in H.
      apply rbind_Ok in H. destruct H as (e1 & E1 & H). apply rbind_Ok in H. destruct H as (e2 & E2 & H). injection H as <-.
      assert (One : In e e1 <-> exists t y l v, stands_for all n x t y /\ carries y l v /\ e = ex_of (join "." (t :: l)) v).
      { destruct (oas_type_ref (x_head x) =?s "") eqn:R; cbn [negb] in E1.
        - apply seqb_eq in R. injection E1 as <-. rewrite collect_spec. split.
          + intros (l & v & C & ->). exists n, x, l, v. split; [|split; [exact C|reflexivity]]. left. split; [apply ref_none; exact R|]. split; reflexivity.
          + intros (t & y & l & v & [(_ & -> & ->)|(N & S & _)] & C & ->); [exists l, v; split; [exact C|reflexivity]|].
            apply (ref_some _ _ N) in S. rewrite R in S. destruct (N (eq_sym S)).
        - apply seqb_neq in R. destruct (get (oas_type_ref (x_head x)) all) as [d|] eqn:G; [|discriminate]. injection E1 as <-. rewrite collect_spec. split.
          + intros (l & v & C & ->). exists (oas_type_ref (x_head x)), d, l, v. split; [|split; [exact C|reflexivity]].
            right. split; [exact R|]. split; [apply (ref_some _ _ R); reflexivity|]. apply get_first. exact G.
          + intros (t & y & l & v & [(N & _)|(N & S & F)] & C & ->); [apply ref_none in N; contradiction|].
            apply (ref_some _ _ N) in S. apply get_first in F. rewrite S in *. rewrite G in F. injection F as ->. exists l, v. split; [exact C|reflexivity]. }
      rewrite in_app_iff, One, (IH e2 E2 e). clear One IH. split.
      * intros [(t & y & l & v & S & C & ->)|(n' & x' & t & y & l & v & I & R)].
        -- exists n, x, t, y, l, v. split; [left; reflexivity|]. split; [exact K|]. split; [exact S|]. split; [exact C|reflexivity].
        -- exists n', x', t, y, l, v. split; [right; exact I|exact R].
      * intros (n' & x' & t & y & l & v & [I|I] & K2 & R).
        -- injection I as <- <-. left. exists t, y, l, v. exact R.
        -- right. exists n', x', t, y, l, v. split; [exact I|]. split; [exact K2|exact R].
Qed.

(** ** Types and fields that are addressed *)
Lemma bare_head x : o_type (bare x) = o_type (x_head x) /\ o_ref (bare x) = o_ref (x_head x).
Proof. destruct x. split; reflexivity. Qed.
Lemma string_no_struct s : ts_type (convert_string s) <> "Struct".
Proof.
  unfold convert_string. repeat match goal with |- context [if ?b then _ else _] => destruct b | |- context [match ?b with Some _ => _ | None => _ end] => destruct b end; cbn; discriminate.
Qed.
Lemma struct_fields x ts : convert_oas (bare x) = Ok ts -> ts_type ts = "Struct" ->
  (o_type (x_head x) = "" \/ o_type (x_head x) = "object") /\ map fd_name (ts_fields ts) = properties x.
Proof.
  rewrite convert_oas_eq. cbv zeta. destruct x as [h e i ps]. cbn [bare o_type o_items o_props x_head properties].
  destruct (o_type h =?s "boolean"); [intros D; injection D as <-; discriminate|].
  destruct (o_type h =?s "string"); [intros D T; injection D as <-; destruct (string_no_struct _ T)|].
  destruct (o_type h =?s "array").
  { destruct i as [y|]; cbn [option_map]; [|intros D; injection D as <-; discriminate]. destruct (negb _); [intros D; injection D as <-; discriminate|].
    destruct (convert_oas (bare y)); intros D; try discriminate; injection D as <-; discriminate. }
  destruct (o_type h =?s "number"); [intros D; injection D as <-; discriminate|].
  destruct (o_type h =?s "integer").
  { intros D T. injection D as <-. cbn [ts_type ts_fill] in T. unfold integer_name in T.
    repeat match type of T with context [if ?b then _ else _] => destruct b end; discriminate. }
  destruct ((o_type h =?s "") || (o_type h =?s "object"))%bool eqn:O; [|discriminate].
  intros D _. split; [apply orb_true_iff in O; destruct O as [O|O]; apply seqb_eq in O; tauto|].
  destruct ps as [l|]; cbn [option_map] in D; [|injection D as <-; reflexivity].
  apply rbind_Ok in D. destruct D as (fs & F & D). injection D as <-. cbn [ts_fields ts_fill]. apply each_Ok in F. clear O. revert fs F.
  induction l as [|[f y] l IH]; intros fs F; inversion F as [|? g ? gs C F']; subst; [reflexivity|]. cbn [map fst]. f_equal; [|apply IH; exact F'].
  unfold convert_prop in C. apply rbind_Ok in C. destruct C as (ft & _ & C). injection C as <-. reflexivity.
Qed.
Lemma object_struct x ts : convert_oas (bare x) = Ok ts -> o_type (x_head x) = "" \/ o_type (x_head x) = "object" -> ts_type ts = "Struct".
Proof.
  rewrite convert_oas_eq. cbv zeta. rewrite (proj1 (bare_head x)). intros H O.
  assert (E : forall s, (s = "" \/ s = "object") -> (s =?s "boolean") = false /\ (s =?s "string") = false /\ (s =?s "array") = false /\ (s =?s "number") = false
     /\ (s =?s "integer") = false /\ ((s =?s "") || (s =?s "object"))%bool = true) by (intros s [-> | ->]; repeat split).
  destruct (E _ O) as (E1 & E2 & E3 & E4 & E5 & E6). rewrite E1, E2, E3, E4, E5, E6 in H. destruct (o_props (bare x)).
  - apply rbind_Ok in H. destruct H as (fs & _ & H). injection H as <-. reflexivity.
  - injection H as <-. reflexivity.
Qed.
Lemma get_bare t all d : get t (bare_all all) = Some d -> exists y, In (t, y) all /\ d = bare y.
Proof.
  induction all as [|[k z] all IH]; cbn; [discriminate|]. destruct (t =?s k) eqn:E.
  - apply seqb_eq in E. subst k. intros D. injection D as <-. exists z. split; [left; reflexivity|reflexivity].
  - intros D. destruct (IH D) as (y & I & ->). exists y. split; [right; exact I|reflexivity].
Qed.
Lemma types_from all : forall ss tds td, import_types (bare_all all) (bare_all ss) = Ok tds -> In td tds ->
  exists x y, In (td_name td, x) ss /\ convert_oas (bare y) = Ok (td_spec td) /\ (y = x \/ oas_type_ref (bare x) <> "" /\ exists t, In (t, y) all).
Proof.
  induction ss as [|[n x] ss IH]; intros tds td H I; cbn [bare_all map import_types fst snd] in H.
  - injection H as <-. destruct I.
  - destruct (valid_sadl_name n (bare x) =?s "") eqn:V.
    + destruct (IH tds td H I) as (x' & y & J & R). exists x', y. split; [right; exact J|exact R].
    + apply rbind_Ok in H. destruct H as (ts & T & H). apply rbind_Ok in H. destruct H as (l & L & H). injection H as <-.
      destruct I as [<-|I]; [|destruct (IH l td L I) as (x' & y & J & R); exists x', y; split; [right; exact J|exact R]].
      assert (Vn : valid_sadl_name n (bare x) = n).
      { clear -V. unfold valid_sadl_name in *. destruct (n =?s "Timestamp"); [destruct (o_type (bare x) =?s "string"); [discriminate|reflexivity]|].
        destruct (n =?s "Decimal"); [discriminate|reflexivity]. }
      cbn [td_name td_spec]. rewrite Vn. destruct (oas_type_ref (bare x) =?s "") eqn:R; cbn [negb] in T.
      * exists x, x. split; [left; reflexivity|]. split; [exact T|left; reflexivity].
      * destruct (get (oas_type_ref (bare x)) (bare_all all)) as [d|] eqn:G; [|discriminate]. destruct (get_bare _ _ _ G) as (y & J & ->).
        exists x, y. split; [left; reflexivity|]. split; [exact T|]. right. split; [apply seqb_neq; exact R|]. exists (oas_type_ref (bare x)). exact J.
Qed.
Lemma joined l l' : l <> [] -> l' <> [] -> Forall (no_char ".") l -> Forall (no_char ".") l' -> join "." l = join "." l' -> l = l'.
Proof.
  intros N N' F F' E. rewrite Forall_forall in F, F'. rewrite <- (split_join "." l N), <- (split_join "." l' N').
  - rewrite E. reflexivity.
  - intros x I. apply no_char_smem, F', I.
  - intros x I. apply no_char_smem, F, I.
Qed.
Lemma once {A} (n : string) (x y : A) (all : list (string * A)) : NoDup (map fst all) -> In (n, x) all -> In (n, y) all -> x = y.
Proof.
  induction all as [|[k z] all IH]; intros N I J; [destruct I|]. cbn in N. inversion N as [|? ? N1 N2]; subst.
  assert (X : forall w, In (k, w) all -> False) by (intros w W; apply N1; apply (in_map fst) in W; exact W).
  destruct I as [I|I], J as [J|J].
  - congruence.
  - injection I as -> ->. destruct (X _ J).
  - injection J as -> ->. destruct (X _ I).
  - exact (IH N2 I J).
Qed.
Theorem addressed_iff all tds n x l v : import_types (bare_all all) (bare_all all) = Ok tds -> NoDup (map fst all) -> no_dots all ->
  In (n, x) all -> def_kept n (x_head x) -> o_ref (x_head x) = "" -> carries x l v -> Forall (no_char ".") l ->
  (addressed tds (join "." (n :: l)) <-> l = [] \/ (o_type (x_head x) = "" \/ o_type (x_head x) = "object") /\ exists f, l = [f]).
Proof.
  intros H U ND I K R C NL. destruct (ND n x I) as [Nn Nf].
  destruct (types_In _ _ _ n (bare x) H) as (ts & T & J).
  { apply (in_map (fun nx => (fst nx, bare (snd nx)))) in I. exact I. }
  { unfold def_kept in *. rewrite (proj1 (bare_head x)). exact K. }
  { rewrite (proj2 (bare_head x)). exact R. }
  assert (Full : Forall (no_char ".") (n :: l)) by (constructor; assumption).
  split.
  - intros [(td & Itd & E)|(td & f & Itd & S & If & E)]; destruct (types_from all all tds td H Itd) as (x' & y & I' & Cv & Y).
    + left. destruct (ND _ _ I') as [Nt _]. apply (joined [td_name td] (n :: l)) in E; try discriminate; [injection E as _ <-; reflexivity|constructor; [exact Nt|constructor]|exact Full].
    + right. destruct (ND _ _ I') as [Nt _]. destruct (struct_fields y _ Cv S) as [O Pf].
      assert (Ns : no_char "." (fd_name f)).
      { assert (In (fd_name f) (properties y)) by (rewrite <- Pf; apply in_map; exact If). destruct Y as [->|[_ [t Jt]]]; [apply (ND _ _ I')|apply (ND _ _ Jt)]; assumption. }
      change (td_name td +++ "." +++ fd_name f) with (join "." [td_name td; fd_name f]) in E.
      apply joined in E; try discriminate; [|exact Full|constructor; [exact Nt|constructor; [exact Ns|constructor]]]. injection E as En El.
      rewrite <- En in I'. pose proof (once _ _ _ _ U I I') as X. subst x'. destruct Y as [->|[Y _]].
      * split; [exact O|]. exists (fd_name f). exact El.
      * exfalso. apply Y. apply ref_none. left. rewrite (proj2 (bare_head x)). exact R.
  - intros [->|[O [f ->]]].
    + left. exists (mkTD n (o_desc (bare x)) [] ts). split; [exact J|reflexivity].
    + right. pose proof (object_struct x ts T O) as S. destruct (struct_fields x ts T S) as [_ Pf].
      assert (Fp : In f (properties x)).
      { inversion C as [h0 v0 i0 ps0|h0 e0 y ps0 l0 v0 T0 R0 C'|h0 e0 i0 ps0 g y l0 v0 T0 Ig R0 C']; subst.
        - cbn in O. rewrite T0 in O. destruct O; discriminate.
        - cbn. apply (in_map fst) in Ig. exact Ig. }
      rewrite <- Pf in Fp. apply in_map_iff in Fp. destruct Fp as (fd & <- & Ifd).
      exists (mkTD n (o_desc (bare x)) [] ts), fd. split; [exact J|]. split; [exact S|]. split; [exact Ifd|reflexivity].
Qed.
Lemma get_bare_none t all : get t (bare_all all) = None <-> get t all = None.
Proof. induction all as [|[k z] all IH]; cbn; [tauto|]. destruct (t =?s k); [split; discriminate|exact IH]. Qed.
Lemma bare_valid n x : valid_sadl_name n (bare x) = valid_sadl_name n (x_head x) /\ oas_type_ref (bare x) = oas_type_ref (x_head x).
Proof. destruct x. split; reflexivity. Qed.
Lemma import_examples_total all : forall ss tds, import_types (bare_all all) (bare_all ss) = Ok tds -> exists es, import_examples all ss = Ok es.
Proof.
  induction ss as [|[n x] ss IH]; intros tds H; cbn [bare_all map import_types fst snd] in H; cbn [import_examples]; [eauto|].
  destruct (bare_valid n x) as [V R]. rewrite V, R in H. destruct (valid_sadl_name n (x_head x) =?s ""); [exact (IH tds H)|].
  apply rbind_Ok in H. destruct H as (ts & T & H). apply rbind_Ok in H. destruct H as (l & L & _). destruct (IH l L) as (es & ->).
  destruct (oas_type_ref (x_head x) =?s ""); cbn [negb] in *; [eexists; reflexivity|].
  destruct (get (oas_type_ref (x_head x)) all) as [d|] eqn:G; [eexists; reflexivity|]. apply get_bare_none in G. rewrite G in T. discriminate.
Qed.

(** ** Responses *)
Lemma strip_cases h h' : strip_x h = h' <-> h = "x-" +++ h' \/ h = "X-" +++ h' \/ h' = h /\ forall r, h <> "x-" +++ r /\ h <> "X-" +++ r.
Proof.
  unfold strip_x. destruct (has_prefix "x-" h) eqn:E1; cbn [orb].
  - apply has_prefix_spec in E1. destruct E1 as [r ->]. change (sdrop 2 ("x-" +++ r)) with r. split; [intros ->; left; reflexivity|].
    intros [D|[D|[_ D]]]; [injection D as D; exact D|discriminate|]. destruct (D r) as [X _]. destruct (X eq_refl).
  - destruct (has_prefix "X-" h) eqn:E2.
    + apply has_prefix_spec in E2. destruct E2 as [r ->]. change (sdrop 2 ("X-" +++ r)) with r. split; [intros ->; right; left; reflexivity|].
      intros [D|[D|[_ D]]]; [discriminate|injection D as D; exact D|]. destruct (D r) as [_ X]. destruct (X eq_refl).
    + split.
      * intros <-. right. right. split; [reflexivity|]. intros r. split; intros ->; [cbn in E1|cbn in E2]; discriminate.
      * intros [->|[->|[-> _]]]; [discriminate|discriminate|reflexivity].
Qed.
Lemma join_two op f l : join "." ((op +++ ".Expected." +++ f) :: l) = join "." (op :: "Expected" :: f :: l).
Proof. rewrite <- join_step, <- join_step. f_equal. f_equal. rewrite !append_assoc. reflexivity. Qed.
Theorem responses_spec op hs body e : In e (response_examples op hs body) <-> exists l v, responds hs body l v /\ e = ex_of (join "." (op :: "Expected" :: l)) v.
Proof.
  unfold response_examples. rewrite in_app_iff, in_flat_map. split.
  - intros [((h & y) & I & E)|E].
    + cbn [fst snd] in E. destruct (o_ref (x_head y) =?s "") eqn:R; cbn [negb] in E; [|destruct E]. apply seqb_eq in R.
      apply collect_spec in E. destruct E as (l & v & C & ->). exists (letters (strip_x h) :: l), v.
      split; [apply re_header with (h := h) (y := y); [exact I|exact R|apply strip_cases; reflexivity|exact C]|]. rewrite identifier_letters, join_two. reflexivity.
    + destruct body as [y|]; [|destruct E]. destruct (o_ref (x_head y) =?s "") eqn:R; cbn [negb] in E; [|destruct E]. apply seqb_eq in R.
      apply collect_spec in E. destruct E as (l & v & C & ->). exists ("payload" :: l), v. split; [apply re_body with y; [reflexivity|exact R|exact C]|].
      change ".Expected.payload" with (".Expected." +++ "payload"). rewrite join_two. reflexivity.
  - intros (l & v & [h y h' l' v' I R S C|y l' v' -> R C] & ->).
    + left. exists (h, y). split; [exact I|]. cbn [fst snd]. rewrite R. change (negb ("" =?s "")) with false. cbv iota. apply collect_spec. exists l', v'. split; [exact C|].
      apply strip_cases in S. rewrite S, identifier_letters, join_two. reflexivity.
    + right. rewrite R. change (negb ("" =?s "")) with false. cbv iota. apply collect_spec. exists l', v'. split; [exact C|].
      change ".Expected.payload" with (".Expected." +++ "payload"). rewrite join_two. reflexivity.
Qed.
Lemma responds_not_found all tds op l : import_types (bare_all all) (bare_all all) = Ok tds -> no_dots all -> no_char "." op -> Forall (no_char ".") l -> l <> [] ->
  ~ addressed tds (join "." (op :: "Expected" :: l)).
Proof.
  intros H ND No NL Ne A.
  assert (Full : Forall (no_char ".") (op :: "Expected" :: l)) by (constructor; [exact No|constructor; [apply no_char_smem; reflexivity|exact NL]]).
  destruct A as [(td & Itd & E)|(td & f & Itd & S & If & E)]; destruct (types_from all all tds td H Itd) as (x' & y & I' & Cv & Y); destruct (ND _ _ I') as [Nt _].
  - apply (joined [td_name td] (op :: "Expected" :: l)) in E; try discriminate; [constructor; [exact Nt|constructor]|exact Full].
  - destruct (struct_fields y _ Cv S) as [_ Pf].
    assert (Ns : no_char "." (fd_name f)).
    { assert (In (fd_name f) (properties y)) by (rewrite <- Pf; apply in_map; exact If). destruct Y as [->|[_ [t Jt]]]; [apply (ND _ _ I')|apply (ND _ _ Jt)]; assumption. }
    change (td_name td +++ "." +++ fd_name f) with (join "." [td_name td; fd_name f]) in E.
    apply joined in E; try discriminate; [|exact Full|constructor; [exact Nt|constructor; [exact Ns|constructor]]]. injection E as _ _ El. exact (Ne El).
Qed.
