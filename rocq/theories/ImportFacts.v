(** Reading an OpenAPI document does not depend on the order of its maps. *)
From Coq Require Import Permutation.
From Verif Require Import GoStr Outcome Value Schema Misc Model SpecModel ModelFacts SpecPV SpecMisc SpecGen OpenApi
  OpenApiImport SpecOpenApi OpenApiFacts SpecImport.

(** ** Lists related up to order *)
Lemma perm2_forall {A B} (R : A -> B -> Prop) l l' : Forall2 R l l' -> perm2 R l l'.
Proof. intros H. exists l. split; [apply Permutation_refl|exact H]. Qed.
Lemma forall2_perm {A B} (R : A -> B -> Prop) : forall l l' k', Forall2 R l l' -> Permutation l' k' ->
  exists k, Permutation l k /\ Forall2 R k k'.
Proof.
  intros l l' k' H P. revert l H. induction P as [|x a b P IH|x y a|a b c P1 IH1 P2 IH2]; intros l H.
  - exists l. inversion H; subst. split; [apply Permutation_refl|constructor].
  - inversion H as [|u ? us ? U V]; subst. destruct (IH us V) as (k & K & F). exists (u :: k). split; [constructor; exact K|constructor; assumption].
  - inversion H as [|u ? us ? U V]; subst. inversion V as [|w ? ws ? W Z]; subst. exists (w :: u :: ws). split; [apply perm_swap|]. repeat (constructor; try assumption).
  - destruct (IH1 l H) as (k & K & F). destruct (IH2 k F) as (k2 & K2 & F2). exists k2. split; [eapply Permutation_trans; eassumption|exact F2].
Qed.
Lemma forall2_swap {A B} (R : A -> B -> Prop) l l' : Forall2 R l l' -> Forall2 (fun b a => R a b) l' l.
Proof. intros H. induction H; constructor; assumption. Qed.
Lemma perm2_trans_l {A B} (R : A -> B -> Prop) l k l' : Permutation l k -> perm2 R k l' -> perm2 R l l'.
Proof. intros P (j & Q & F). exists j. split; [eapply Permutation_trans; eassumption|exact F]. Qed.
Lemma perm2_trans_r {A B} (R : A -> B -> Prop) l k l' : perm2 R l k -> Permutation k l' -> perm2 R l l'.
Proof. intros (j & Q & F) P. destruct (forall2_perm R _ _ _ F P) as (j2 & Q2 & F2). exists j2. split; [eapply Permutation_trans; eassumption|exact F2]. Qed.
Lemma perm2_impl {A B} (R S : A -> B -> Prop) l l' : (forall a b, In a l -> R a b -> S a b) -> perm2 R l l' -> perm2 S l l'.
Proof.
  intros H (k & P & F). exists k. split; [exact P|].
  assert (K : forall a, In a k -> In a l) by (intros a I; apply (Permutation_in a (Permutation_sym P) I)). clear P.
  induction F as [|x z k l2 X F IH]; constructor; [apply H; [apply K; left; reflexivity|exact X]|apply IH; intros a I; apply K; right; exact I].
Qed.
Lemma perm2_app {A B} (R : A -> B -> Prop) a b a' b' : perm2 R a a' -> perm2 R b b' -> perm2 R (a ++ b) (a' ++ b').
Proof. intros (k & P & F) (j & Q & G). exists (k ++ j). split; [apply Permutation_app; assumption|apply Forall2_app; assumption]. Qed.
Lemma perm2_map {A B C D} (f : A -> C) (g : B -> D) (R : A -> B -> Prop) (S : C -> D -> Prop) l l' :
  (forall a b, R a b -> S (f a) (g b)) -> perm2 R l l' -> perm2 S (map f l) (map g l').
Proof.
  intros H (k & P & F). exists (map f k). split; [apply Permutation_map; exact P|]. clear P. induction F; simpl; constructor; auto.
Qed.
Lemma perm2_nil {A B} (R : A -> B -> Prop) l' : perm2 R [] l' -> l' = [].
Proof. intros (k & P & F). apply Permutation_nil in P. subst. inversion F. reflexivity. Qed.
Lemma perm2_cons {A B} (R : A -> B -> Prop) a l l' : perm2 R (a :: l) l' ->
  exists x b y, l' = x ++ b :: y /\ R a b /\ perm2 R l (x ++ y).
Proof.
  intros (k & P & F). destruct (in_split a k) as (k1 & k2 & ->); [apply (Permutation_in a P); left; reflexivity|].
  apply Forall2_app_inv_l in F. destruct F as (x & y' & F1 & F2 & ->). inversion F2 as [|? b ? y X F3]; subst.
  exists x, b, y. split; [reflexivity|]. split; [exact X|]. exists (k1 ++ k2). split; [apply (Permutation_cons_app_inv _ _ P)|apply Forall2_app; assumption].
Qed.
Lemma perm2_insert {A B} (R : A -> B -> Prop) a b l x y : R a b -> perm2 R l (x ++ y) -> perm2 R (a :: l) (x ++ b :: y).
Proof.
  intros H (k & P & F). apply Forall2_app_inv_r in F. destruct F as (k1 & k2 & F1 & F2 & ->). exists (k1 ++ a :: k2). split.
  - apply Permutation_cons_app. exact P.
  - apply Forall2_app; [exact F1|constructor; assumption].
Qed.
Lemma perm2_keys {A} (R : A -> A -> Prop) l l' : perm2 (keyed R) l l' -> Permutation (map fst l) (map fst l').
Proof.
  intros (k & P & F). transitivity (map fst k); [apply Permutation_map; exact P|].
  replace (map fst k) with (map fst l'); [apply Permutation_refl|]. clear P. induction F as [|x y k l' X F IH]; [reflexivity|]. simpl. rewrite IH. f_equal. symmetry. exact (proj1 X).
Qed.
Lemma perm2_get {A} (R : A -> A -> Prop) l l' k v : keys_once l -> perm2 (keyed R) l l' -> get k l = Some v -> exists v', get k l' = Some v' /\ R v v'.
Proof.
  intros N P G. assert (N' : keys_once l') by (unfold keys_once; rewrite <- (perm2_keys R l l' P); exact N).
  apply (get_In _ _ _ N) in G. destruct P as (j & P & F). apply (Permutation_in _ P) in G. clear P.
  assert (X : exists v', In (k, v') l' /\ R v v').
  { clear N'. induction F as [|x y j l' X F IH]; [destruct G|]. destruct G as [->|G]; [|destruct (IH G) as (v' & I & Q); exists v'; simpl; auto].
    destruct y as [ky vy]. destruct X as [E Q]. simpl in *. subst. exists vy. auto. }
  destruct X as (v' & I & Q). exists v'. split; [apply (get_In _ _ _ N'); exact I|exact Q].
Qed.
Lemma perm2_get_none {A} (R : A -> A -> Prop) l l' k : perm2 (keyed R) l l' -> get k l = None -> get k l' = None.
Proof. intros P G. apply get_None. apply get_None in G. intros X. apply G. exact (Permutation_in k (Permutation_sym (perm2_keys R l l' P)) X). Qed.

(** ** Reading a list, element by element *)
Fixpoint each {A B} (f : A -> result unit B) (l : list A) : result unit (list B) :=
  match l with [] => Ok [] | a :: r => x <- f a ;; xs <- each f r ;; Ok (x :: xs) end.
Lemma each_Ok {A B} (f : A -> result unit B) l xs : each f l = Ok xs <-> Forall2 (fun a x => f a = Ok x) l xs.
Proof.
  revert xs. induction l as [|a l IH]; intros xs; simpl.
  - split; [intros E; injection E as <-; constructor|intros F; inversion F; reflexivity].
  - rewrite rbind_Ok. split.
    + intros (x & X & H). apply rbind_Ok in H. destruct H as (ys & Y & E). injection E as <-. constructor; [exact X|apply IH; exact Y].
    + intros F. inversion F as [|? x ? ys X Y]; subst. exists x. split; [exact X|]. rewrite (proj2 (IH ys) Y). reflexivity.
Qed.
Lemma forall2_compose {A B A' B'} (R : A -> A' -> Prop) (S : B -> B' -> Prop) (P : A -> B -> Prop) (Q : A' -> B' -> Prop) l :
  (forall a b x, In a l -> R a b -> P a x -> exists y, Q b y /\ S x y) ->
  forall l' xs, Forall2 R l l' -> Forall2 P l xs -> exists ys, Forall2 Q l' ys /\ Forall2 S xs ys.
Proof.
  induction l as [|a l IH]; intros H l' xs F G; inversion F as [|? b ? lb F1 F2]; subst; inversion G as [|? x ? lx G1 G2]; subst; [exists []; split; constructor|].
  destruct (H a b x (or_introl eq_refl) F1 G1) as (y & Y & SY).
  destruct (IH (fun a b x I => H a b x (or_intror I)) lb lx F2 G2) as (ys & YS & SS).
  exists (y :: ys). split; constructor; assumption.
Qed.
Lemma each_perm2 {A B A' B'} (R : A -> A' -> Prop) (S : B -> B' -> Prop) (f : A -> result unit B) (g : A' -> result unit B') l l' xs :
  (forall a b x, In a l -> R a b -> f a = Ok x -> exists y, g b = Ok y /\ S x y) ->
  perm2 R l l' -> each f l = Ok xs -> exists ys, each g l' = Ok ys /\ perm2 S xs ys.
Proof.
  intros H (k & P & F) E. apply each_Ok in E.
  destruct (forall2_perm _ _ _ _ (forall2_swap _ _ _ E) P) as (zs & Q & Z). apply forall2_swap in Z.
  destruct (forall2_compose R S (fun a x => f a = Ok x) (fun b y => g b = Ok y) k) with (l' := l') (xs := zs) as (ys & Y & SY); [|exact F|exact Z|].
  { intros a b x I. apply H. exact (Permutation_in a (Permutation_sym P) I). }
  exists ys. split; [apply each_Ok; exact Y|]. exists zs. split; [exact Q|exact SY].
Qed.
Lemma each_forall2 {A B A' B'} (R : A -> A' -> Prop) (S : B -> B' -> Prop) (f : A -> result unit B) (g : A' -> result unit B') l l' xs :
  (forall a b x, In a l -> R a b -> f a = Ok x -> exists y, g b = Ok y /\ S x y) ->
  Forall2 R l l' -> each f l = Ok xs -> exists ys, each g l' = Ok ys /\ Forall2 S xs ys.
Proof.
  intros H F E. apply each_Ok in E.
  destruct (forall2_compose R S (fun a x => f a = Ok x) (fun b y => g b = Ok y) l H l' xs F E) as (ys & Y & SY).
  exists ys. split; [apply each_Ok; exact Y|exact SY].
Qed.

(** ** Schemas *)
Section oas_ind.
  Variable P : oas -> Prop.
  Hypothesis H : forall s, (forall i, o_items s = Some i -> P i) -> (forall ps n i, o_props s = Some ps -> In (n, i) ps -> P i) -> P s.
  Fixpoint oas_ind' (s : oas) : P s.
  Proof.
    apply H; destruct s as [r t f d p mn mx mnl mxl en items addl props req one]; simpl.
    - intros i E. destruct items as [j|]; [|discriminate]. injection E as <-. apply oas_ind'.
    - intros ps n i E I. destruct props as [qs|]; [|discriminate]. injection E as <-.
      induction qs as [|[k x] qs IH]; [destruct I|]. destruct I as [I|I]; [|exact (IH I)].
      assert (X : P x) by apply oas_ind'. injection I as _ ->. exact X.
  Defined.
End oas_ind.

(** import_openapi.go:348-365: one property *)
Definition convert_prop (req : list string) (nf : string * oas) : result unit fielddef :=
  ft <- (if negb (oas_type_ref (snd nf) =?s "") then Ok (ts_of (oas_type_ref (snd nf))) else convert_oas (snd nf)) ;;
  Ok (mkField (fst nf) (o_desc (snd nf)) [] (contains_string req (fst nf)) VNil ft).
Lemma convert_props_each req ps :
  (fix go (l : list (string * oas)) : result unit (list fielddef) :=
     match l with
     | [] => Ok []
     | (n, f) :: r =>
         ft <- (if negb (oas_type_ref f =?s "") then Ok (ts_of (oas_type_ref f)) else convert_oas f) ;;
         rest <- go r ;;
         Ok (mkField n (o_desc f) [] (contains_string req n) VNil ft :: rest)
     end) ps = each (convert_prop req) ps.
Proof.
  induction ps as [|[n f] r IH]; [reflexivity|]. cbn [each]. unfold convert_prop at 1. cbn [fst snd]. rewrite IH.
  destruct (if negb (oas_type_ref f =?s "") then Ok (ts_of (oas_type_ref f)) else convert_oas f) as [ft| | |]; reflexivity.
Qed.
Lemma convert_oas_eq s : convert_oas s =
  let t := o_type s in
  if t =?s "boolean" then Ok (ts_of "Bool")
  else if t =?s "string" then Ok (convert_string s)
  else if t =?s "array" then
    match o_items s with
    | None => Ok (ts_of "Array")
    | Some i =>
        if negb (o_ref i =?s "") then Ok (ts_fill "Array" "" None None None [] [] None None (oas_type_ref i))
        else
          match convert_oas i with
          | Ok its => Ok (ts_fill "Array" "" None None None [] [] None None (ts_type its))
          | Err _ => Ok (ts_of "Array")
          | Panic => Panic
          | OutOfFuel => OutOfFuel
          end
    end
  else if t =?s "number" then Ok (ts_fill "Decimal" "" None None None [] [] (o_min s) (o_max s) "")
  else if t =?s "integer" then Ok (ts_fill (integer_name (o_format s)) "" None None None [] [] (o_min s) (o_max s) "")
  else if (t =?s "") || (t =?s "object") then
    match o_props s with
    | None => Ok (ts_of "Struct")
    | Some ps => fs <- each (convert_prop (o_required s)) ps ;; Ok (ts_fill "Struct" "" None None None [] fs None None "")
    end
  else Panic.
Proof.
  destruct s as [r t f d p mn mx mnl mxl en items addl props req one]. cbn [convert_oas o_type o_items o_props o_required o_min o_max o_format].
  cbv zeta. destruct props as [ps|]; [rewrite convert_props_each|]; reflexivity.
Qed.
Lemma convert_no_err s e : convert_oas s <> Err e.
Proof.
  induction s as [s _ HP] using oas_ind'. rewrite convert_oas_eq. cbv zeta.
  repeat match goal with |- context [if ?b then _ else _] => destruct b end; try discriminate.
  - destruct (o_items s) as [i|]; [|discriminate]. destruct (negb _); [discriminate|]. destruct (convert_oas i); discriminate.
  - destruct (o_props s) as [ps|] eqn:E; [|discriminate].
    assert (HP' : forall n i, In (n, i) ps -> convert_oas i <> Err e) by (intros n i; apply HP; reflexivity). clear -HP'.
    intros X. assert (Y : each (convert_prop (o_required s)) ps = Err e) by (destruct (each _ ps); simpl in X; congruence). clear X.
    induction ps as [|[n f] ps IH]; [discriminate|]. cbn [each] in Y. unfold convert_prop at 1 in Y. cbn [fst snd] in Y.
    destruct (negb _); [|destruct (convert_oas f) eqn:C; try discriminate; [|injection Y as ->; exact (HP' n f (or_introl eq_refl) C)]]; cbn [rbind] in Y;
      (destruct (each _ ps) eqn:Z; cbn [rbind] in Y; try discriminate; injection Y as ->; apply (fun K => IH K eq_refl); intros k i I; exact (HP' k i (or_intror I))).
Qed.

Lemma ts_alike_refl ts : ts_alike ts ts.
Proof.
  induction ts as [ts HF _] using typespec_ind'. destruct ts as [t p v a b fs e mn mx it k vs u w r]. constructor. simpl in HF. apply perm2_forall.
  induction HF as [|f fs F HF IH]; constructor; [|exact IH]. repeat (split; [reflexivity|]). exact F.
Qed.
Lemma ts_alike_type a b : ts_alike a b -> ts_type a = ts_type b.
Proof. intros H. destruct H. reflexivity. Qed.
Lemma oas_alike_ref a b : oas_alike a b -> oas_type_ref a = oas_type_ref b /\ o_ref a = o_ref b /\ o_type a = o_type b /\ o_desc a = o_desc b /\ o_enum a = o_enum b.
Proof. intros H. destruct H. repeat (split; [reflexivity|]). reflexivity. Qed.
Lemma ts_struct_alike fs fs' : perm2 field_alike fs fs' ->
  ts_alike (ts_fill "Struct" "" None None None [] fs None None "") (ts_fill "Struct" "" None None None [] fs' None None "").
Proof. intros H. constructor. exact H. Qed.

Lemma convert_alike s : forall s' ts, oas_alike s s' -> convert_oas s = Ok ts -> exists ts', convert_oas s' = Ok ts' /\ ts_alike ts ts'.
Proof.
  induction s as [s HI HP] using oas_ind'. intros s' ts A. inversion A as [r t f d p mn mx mnl mxl en items items' addl addl' props props' req one one' BI BP]; subst s s'.
  rewrite !convert_oas_eq. cbn [o_type o_items o_props o_min o_max o_format o_required]. cbv zeta.
  assert (SAME : forall x : typespec, @Ok unit typespec x = Ok ts -> exists ts', @Ok unit typespec x = Ok ts' /\ ts_alike ts ts')
    by (intros x E; injection E as <-; exists x; split; [reflexivity|apply ts_alike_refl]).
  destruct (t =?s "boolean"); [apply SAME|]. destruct (t =?s "string"); [intros E; injection E as <-; eexists; split; [reflexivity|apply ts_alike_refl]|].
  destruct (t =?s "array").
  - simpl in HI. destruct BI as [|i i' AI]; [apply SAME|]. destruct (oas_alike_ref _ _ AI) as (R1 & R2 & _). rewrite <- R1, <- R2.
    destruct (negb _); [apply SAME|]. destruct (convert_oas i) as [its| | |] eqn:C; try discriminate.
    + destruct (HI i eq_refl i' its AI C) as (its' & C' & T). rewrite C'. intros E. injection E as <-. rewrite (ts_alike_type _ _ T).
      eexists. split; [reflexivity|apply ts_alike_refl].
    + exfalso. exact (convert_no_err _ _ C).
  - destruct (t =?s "number"); [apply SAME|]. destruct (t =?s "integer"); [apply SAME|]. destruct ((t =?s "") || (t =?s "object")); [|discriminate].
    simpl in HP. destruct BP as [|ps ps' AP]; [apply SAME|]. intros E. apply rbind_Ok in E. destruct E as (fs & F & E). injection E as <-.
    destruct (each_perm2 (keyed oas_alike) field_alike (convert_prop req) (convert_prop req) ps ps' fs) as (fs' & F' & FA); [|exact AP|exact F|].
    + intros [n x] [n' y] g I [K AX] C. simpl in K. subst n'. simpl in AX. unfold convert_prop in *. cbn [fst snd] in *.
      destruct (oas_alike_ref _ _ AX) as (R1 & R2 & _ & R4 & _). rewrite <- R1, <- R4. destruct (negb _).
      * cbn [rbind] in *. eexists. split; [exact C|]. injection C as <-. repeat (split; [reflexivity|]). apply ts_alike_refl.
      * apply rbind_Ok in C. destruct C as (ft & C & Z). injection Z as <-. destruct (HP ps n x eq_refl I y ft AX C) as (ft' & C' & T). rewrite C'. cbn [rbind].
        eexists. split; [reflexivity|]. repeat (split; [reflexivity|]). exact T.
    + rewrite F'. cbn [rbind]. eexists. split; [reflexivity|]. apply ts_struct_alike. exact FA.
Qed.

(** ** Operations *)
Lemma param_type_alike s s' : oas_alike s s' -> param_type s' = param_type s.
Proof.
  intros A. unfold param_type. destruct (oas_alike_ref _ _ A) as (R & _ & T & _ & EN). rewrite <- R, <- T, <- EN.
  assert (I : match o_items s' with None => "Any" | Some i => if o_type i =?s "string" then "String" else "Any" end
            = match o_items s with None => "Any" | Some i => if o_type i =?s "string" then "String" else "Any" end).
  { destruct A. cbn [o_items]. destruct H as [|i i' A]; [reflexivity|]. destruct (oas_alike_ref _ _ A) as (_ & _ & T' & _). rewrite T'. reflexivity. }
  rewrite I. reflexivity.
Qed.
Lemma convert_param_alike path p q : oparam_alike p q -> convert_param path q = convert_param path p.
Proof.
  intros (E1 & E2 & E3 & E4 & A). unfold convert_param. rewrite <- E1, <- E2, <- E3, <- E4, (param_type_alike _ _ A). reflexivity.
Qed.
Lemma convert_params_alike path ps qs : Forall2 oparam_alike ps qs -> convert_params path qs = convert_params path ps.
Proof.
  intros F. induction F as [|p q ps qs A F IH]; [reflexivity|]. simpl. rewrite (convert_param_alike _ _ _ A), IH. reflexivity.
Qed.
Lemma convert_body_alike mth b b' q : both (keyed oas_alike) b b' -> convert_body mth b' q = convert_body mth b q.
Proof.
  intros A. unfold convert_body. destruct (str_mem _ _); [|reflexivity]. destruct A as [|[d s] [d' s'] [K A]]; [reflexivity|].
  simpl in K, A. subst d'. rewrite (proj1 (oas_alike_ref _ _ A)). reflexivity.
Qed.
Lemma success_spec st : success st = true <-> success_status st.
Proof.
  unfold success, success_status. rewrite orb_true_iff, !has_prefix_spec. split.
  - intros [[r E]|[r E]]; exists r; auto.
  - intros [r [E|E]]; [left|right]; exists r; exact E.
Qed.
Lemma expected_status_cases rs :
  (In (expected_status rs) (map fst rs) /\ success_status (expected_status rs))
  \/ (expected_status rs = "default" /\ forall k, In k (map fst rs) -> ~ success_status k).
Proof.
  unfold expected_status. destruct (find _ rs) as [[k r]|] eqn:F.
  - left. apply find_some in F. destruct F as [I S]. split; [apply (in_map fst) in I; exact I|]. apply success_spec. exact S.
  - right. split; [reflexivity|]. intros k I S. apply in_map_iff in I. destruct I as ([k' r] & <- & I). apply (find_none _ _ F) in I.
    apply success_spec in S. simpl in *. congruence.
Qed.
Lemma expected_status_alike rs rs' :
  (forall k k', In k (map fst rs) -> In k' (map fst rs) -> success_status k -> success_status k' -> k = k') ->
  perm2 (keyed response_alike) rs rs' -> expected_status rs' = expected_status rs.
Proof.
  intros U P. apply perm2_keys in P.
  assert (IN : forall k, In k (map fst rs') -> In k (map fst rs)) by (intros k; apply Permutation_in, Permutation_sym, P).
  assert (IN' : forall k, In k (map fst rs) -> In k (map fst rs')) by (intros k; apply Permutation_in, P).
  destruct (expected_status_cases rs) as [[I S]|[E N]], (expected_status_cases rs') as [[I' S']|[E' N']].
  - apply U; auto.
  - exfalso. exact (N' _ (IN' _ I) S).
  - exfalso. exact (N _ (IN _ I') S').
  - congruence.
Qed.
Lemma output_type_alike s s' ts : oas_alike s s' -> output_type s = Ok ts -> exists ts', output_type s' = Ok ts' /\ ts_alike ts ts'.
Proof.
  intros A. unfold output_type. destruct (oas_alike_ref _ _ A) as (R & R2 & _). rewrite <- R, <- R2. destruct (negb _).
  - intros E. injection E as <-. eexists. split; [reflexivity|apply ts_alike_refl].
  - apply convert_alike. exact A.
Qed.
Definition convert_header (h : string * (string * oas)) : result unit paramspec :=
  ts <- output_type (snd (snd h)) ;;
  Ok (mkParam (fst h) "" false (mkField (make_identifier (strip_x (fst h))) (fst (snd h)) [] false VNil ts)).
Lemma convert_headers_each hs : convert_headers hs = each convert_header hs.
Proof.
  induction hs as [|[h [d s]] r IH]; [reflexivity|]. cbn [convert_headers each]. unfold convert_header at 1. cbn [fst snd]. rewrite IH.
  destruct (output_type s); reflexivity.
Qed.
Lemma convert_headers_alike hs hs' l : perm2 (keyed (keyed oas_alike)) hs hs' -> convert_headers hs = Ok l ->
  exists l', convert_headers hs' = Ok l' /\ perm2 param_alike l l'.
Proof.
  rewrite !convert_headers_each. apply each_perm2. intros [h [d s]] [h' [d' s']] x _ [K [K2 A]]. simpl in K, K2, A. subst h' d'.
  unfold convert_header. cbn [fst snd]. intros E. apply rbind_Ok in E. destruct E as (ts & T & E). injection E as <-.
  destruct (output_type_alike _ _ _ A T) as (ts' & T' & TA). rewrite T'. cbn [rbind]. eexists. split; [reflexivity|].
  repeat (split; [reflexivity|]). exact TA.
Qed.
Lemma convert_expected_alike st r r' e : response_alike r r' -> convert_expected st r = Ok e ->
  exists e', convert_expected st r' = Ok e' /\ expected_alike e e'.
Proof.
  intros (D & B & H). unfold convert_expected. intros E. apply rbind_Ok in E. destruct E as (code & C & E). rewrite C. cbn [rbind].
  apply rbind_Ok in E. destruct E as (hs & HS & E). destruct (convert_headers_alike _ _ _ H HS) as (hs' & HS' & HA). rewrite HS'. cbn [rbind].
  apply rbind_Ok in E. destruct E as (bs & BS & E). injection E as <-. destruct B as [|s s' A].
  - injection BS as <-. cbn [rbind]. eexists. split; [reflexivity|]. repeat (split; [reflexivity || (simpl; congruence)|]). cbn [xp_outputs]. rewrite !app_nil_r. exact HA.
  - apply rbind_Ok in BS. destruct BS as (ts & T & BS). injection BS as <-. destruct (output_type_alike _ _ _ A T) as (ts' & T' & TA). rewrite T'. cbn [rbind].
    eexists. split; [reflexivity|]. repeat (split; [reflexivity || (simpl; congruence)|]). cbn [xp_outputs]. apply perm2_app; [exact HA|]. apply perm2_forall.
    constructor; [|constructor]. repeat (split; [reflexivity|]). exact TA.
Qed.
Lemma convert_exception_alike st r r' : response_alike r r' -> convert_exception st r' = convert_exception st r.
Proof.
  intros (D & B & H). unfold convert_exception. destruct (if st =?s "default" then _ else _) as [x| | |]; [|reflexivity|reflexivity|reflexivity]. cbn [rbind].
  destruct (atoi x); [|reflexivity]. rewrite <- D. destruct B as [|s s' A]; [reflexivity|]. destruct (oas_alike_ref _ _ A) as (R & R2 & _). rewrite <- R, <- R2. reflexivity.
Qed.
Definition not_key {A} (k : string) (x : string * A) : bool := negb (fst x =?s k).
Lemma convert_exceptions_each k rs : convert_exceptions k rs = each (fun x => convert_exception (fst x) (snd x)) (filter (not_key k) rs).
Proof.
  induction rs as [|[n r] rs IH]; [reflexivity|]. simpl. unfold not_key at 1. simpl. destruct (n =?s k); [exact IH|]. cbn [negb each fst snd]. rewrite IH. reflexivity.
Qed.
Lemma permutation_filter {A} (f : A -> bool) l l' : Permutation l l' -> Permutation (filter f l) (filter f l').
Proof.
  intros P. induction P as [|x a b P IH|x y a|a b c P1 IH1 P2 IH2]; simpl; [constructor| | |].
  - destruct (f x); [constructor|]; exact IH.
  - destruct (f x), (f y); try apply perm_swap; apply Permutation_refl.
  - eapply Permutation_trans; eassumption.
Qed.
Lemma perm2_filter {A} (R : A -> A -> Prop) k l l' : perm2 (keyed R) l l' -> perm2 (keyed R) (filter (not_key k) l) (filter (not_key k) l').
Proof.
  intros (j & P & F). exists (filter (not_key k) j). split; [apply permutation_filter; exact P|]. clear P.
  induction F as [|x y j l' X F IH]; [constructor|]. simpl.
  assert (E : not_key k x = not_key k y) by (unfold not_key; rewrite (proj1 X); reflexivity). rewrite E. destruct (not_key k y); [constructor; assumption|exact IH].
Qed.
Lemma perm2_eq {A} (l l' : list A) : perm2 eq l l' -> Permutation l l'.
Proof. intros (k & P & F). replace l' with k; [exact P|]. clear P. induction F; congruence. Qed.
Lemma convert_exceptions_alike k rs rs' xs : perm2 (keyed response_alike) rs rs' -> convert_exceptions k rs = Ok xs ->
  exists xs', convert_exceptions k rs' = Ok xs' /\ Permutation xs xs'.
Proof.
  intros P. rewrite !convert_exceptions_each. intros E. apply (perm2_filter _ k) in P.
  set (f := fun x : string * oresponse => convert_exception (fst x) (snd x)) in *.
  destruct (each_perm2 (keyed response_alike) eq f f (filter (not_key k) rs) (filter (not_key k) rs') xs) as (ys & Y & S); [|exact P|exact E|].
  { intros [a r] [b r'] x _ [K A] C. simpl in K, A. subst b. exists x. split; [|reflexivity]. unfold f in *. cbn [fst snd] in *. rewrite (convert_exception_alike _ _ _ A). exact C. }
  exists ys. split; [exact Y|apply perm2_eq; exact S].
Qed.
Lemma convert_path_alike path mth op op' h : keys_once (oo_responses op) -> one_success op -> operation_alike op op' ->
  convert_path path op mth = Ok h -> exists h', convert_path path op' mth = Ok h' /\ http_alike h h'.
Proof.
  intros KO U (E1 & E2 & E3 & PS & B & RS & E4). unfold convert_path. rewrite <- E1, <- E2, <- E3, <- E4, (convert_params_alike path _ _ PS), (convert_body_alike mth _ _ _ B).
  rewrite (expected_status_alike _ _ U RS). destruct (convert_tags "" "" (oo_tags op)) as [rez tmp]. intros E. apply rbind_Ok in E. destruct E as ([is qs] & C & E).
  rewrite C. cbn [rbind]. destruct (get (expected_status (oo_responses op)) (oo_responses op)) as [r|] eqn:G; [|discriminate].
  destruct (perm2_get _ _ _ _ _ KO RS G) as (r' & G' & RA). rewrite G'. apply rbind_Ok in E. destruct E as (e & EX & E).
  destruct (convert_expected_alike _ _ _ _ RA EX) as (e' & EX' & EA). rewrite EX'. cbn [rbind]. apply rbind_Ok in E. destruct E as (xs & X & E). injection E as <-.
  destruct (convert_exceptions_alike _ _ _ _ RS X) as (xs' & X' & XA). rewrite X'. cbn [rbind]. eexists. split; [reflexivity|].
  assert (PR : forall l, Forall2 param_alike l l).
  { intros l. induction l; constructor; [|assumption]. repeat (split; [reflexivity|]). apply ts_alike_refl. }
  repeat (split; [reflexivity|]). split; [apply PR|]. split; [constructor; exact EA|exact XA].
Qed.
Lemma import_item_alike t pi pi' : keys_once pi -> (forall mth op, In (mth, op) pi -> keys_once (oo_responses op) /\ one_success op) ->
  perm2 (keyed operation_alike) pi pi' -> forall mths hs, import_item t pi mths = Ok hs -> exists hs', import_item t pi' mths = Ok hs' /\ Forall2 http_alike hs hs'.
Proof.
  intros N K P mths. induction mths as [|mth mths IH]; intros hs E; cbn [import_item] in *.
  - injection E as <-. exists []. split; [reflexivity|constructor].
  - destruct (get mth pi) as [op|] eqn:G.
    + destruct (perm2_get _ _ _ _ _ N P G) as (op' & G' & A). rewrite G'. destruct (has_prefix "x-" t); [apply IH; exact E|].
      apply rbind_Ok in E. destruct E as (h & H & E). apply rbind_Ok in E. destruct E as (rest & R & E). injection E as <-.
      apply (get_In _ _ _ N) in G. destruct (K _ _ G) as [K1 K2]. destruct (convert_path_alike _ _ _ _ _ K1 K2 A H) as (h' & H' & HA).
      destruct (IH _ R) as (rest' & R' & RA). rewrite H'. cbn [rbind]. rewrite R'. cbn [rbind]. eexists. split; [reflexivity|constructor; assumption].
    + rewrite (perm2_get_none _ _ _ _ P G). apply IH. exact E.
Qed.
Lemma import_paths_each ps : import_paths ps = (l <- each (fun x => import_item (fst x) (snd x) import_methods) ps ;; Ok (concat l)).
Proof.
  induction ps as [|[t pi] ps IH]; [reflexivity|]. cbn [import_paths each fst snd]. rewrite IH.
  destruct (import_item t pi import_methods) as [hs| | |]; try reflexivity. cbn [rbind]. destruct (each _ ps); reflexivity.
Qed.
Lemma permutation_concat {A} (l l' : list (list A)) : Permutation l l' -> Permutation (concat l) (concat l').
Proof.
  intros P. induction P as [|x a b P IH|x y a|a b c P1 IH1 P2 IH2]; simpl; [constructor| | |].
  - apply Permutation_app_head. exact IH.
  - rewrite !app_assoc. apply Permutation_app_tail, Permutation_app_comm.
  - eapply Permutation_trans; eassumption.
Qed.
Lemma perm2_concat {A B} (R : A -> B -> Prop) l l' : perm2 (Forall2 R) l l' -> perm2 R (concat l) (concat l').
Proof.
  intros (k & P & F). exists (concat k). split; [apply permutation_concat; exact P|]. clear P. induction F; simpl; [constructor|apply Forall2_app; assumption].
Qed.
Lemma import_paths_alike doc doc' hs : doc_maps doc -> doc_one_success doc -> doc_alike doc doc' -> import_paths (od_paths doc) = Ok hs ->
  exists hs', import_paths (od_paths doc') = Ok hs' /\ perm2 http_alike hs hs'.
Proof.
  intros [_ M] U [_ P]. rewrite !import_paths_each. intros E. apply rbind_Ok in E. destruct E as (l & L & E). injection E as <-.
  set (f := fun x : string * pathitem => import_item (fst x) (snd x) import_methods) in *.
  destruct (each_perm2 (keyed (perm2 (keyed operation_alike))) (Forall2 http_alike) f f (od_paths doc) (od_paths doc') l) as (l' & L' & LA); [|exact P|exact L|].
  - intros [t pi] [t' pi'] x I [K A]. simpl in K, A. subst t'. unfold f. cbn [fst snd]. destruct (M _ _ I) as [N KR].
    apply import_item_alike; [exact N| |exact A]. intros mth op J. split; [exact (KR _ _ J)|]. apply (U t mth op). exists pi. auto.
  - unfold pathitem in *. rewrite L'. cbn [rbind]. eexists. split; [reflexivity|apply perm2_concat; exact LA].
Qed.

(** ** Type definitions *)
Definition convert_def (all : list (string * oas)) (x : string * oas) : result unit (list typedef) :=
  let name := valid_sadl_name (fst x) (snd x) in
  if name =?s "" then Ok []
  else
    let t := oas_type_ref (snd x) in
    ts <- (if negb (t =?s "") then match get t all with Some d => convert_oas d | None => Panic end else convert_oas (snd x)) ;;
    Ok [mkTD name (if negb (t =?s "") then "" else o_desc (snd x)) [] ts].
Lemma import_types_each all ss : import_types all ss = (l <- each (convert_def all) ss ;; Ok (concat l)).
Proof.
  induction ss as [|[n s] ss IH]; [reflexivity|]. cbn [import_types each]. unfold convert_def at 1. cbn [fst snd]. rewrite IH.
  destruct (valid_sadl_name n s =?s ""); cbn [rbind]; [destruct (each _ ss); reflexivity|].
  destruct (if negb (oas_type_ref s =?s "") then _ else _) as [ts| | |]; try reflexivity. cbn [rbind]. destruct (each _ ss); reflexivity.
Qed.
Lemma convert_def_alike all all' x y l : keys_once all -> perm2 (keyed oas_alike) all all' -> keyed oas_alike x y -> convert_def all x = Ok l ->
  exists l', convert_def all' y = Ok l' /\ Forall2 td_alike l l'.
Proof.
  intros N P [K A]. destruct x as [n s], y as [n' s']. simpl in K, A. subst n'. unfold convert_def. cbn [fst snd].
  destruct (oas_alike_ref _ _ A) as (R & _ & T & D & _).
  assert (V : valid_sadl_name n s' = valid_sadl_name n s) by (unfold valid_sadl_name; rewrite T; reflexivity). rewrite V, <- R, <- D.
  destruct (valid_sadl_name n s =?s "").
  - intros E. injection E as <-. eexists. split; [reflexivity|constructor].
  - intros E. apply rbind_Ok in E. destruct E as (ts & C & E). injection E as <-.
    assert (C' : exists ts', (if negb (oas_type_ref s =?s "") then match get (oas_type_ref s) all' with Some d => convert_oas d | None => Panic end else convert_oas s') = Ok ts' /\ ts_alike ts ts').
    { destruct (negb _); [|apply (convert_alike s); assumption]. destruct (get _ all) as [d|] eqn:G; [|discriminate].
      destruct (perm2_get _ _ _ _ _ N P G) as (d' & G' & DA). rewrite G'. apply (convert_alike d); assumption. }
    destruct C' as (ts' & C' & TA). rewrite C'. cbn [rbind]. eexists. split; [reflexivity|]. constructor; [|constructor]. repeat (split; [reflexivity|]). exact TA.
Qed.
Lemma import_types_alike all all' tds : keys_once all -> perm2 (keyed oas_alike) all all' -> import_types all all = Ok tds ->
  exists tds', import_types all' all' = Ok tds' /\ perm2 td_alike tds tds'.
Proof.
  intros N P. rewrite !import_types_each. intros E. apply rbind_Ok in E. destruct E as (l & L & E). injection E as <-.
  destruct (each_perm2 (keyed oas_alike) (Forall2 td_alike) (convert_def all) (convert_def all') all all' l) as (l' & L' & LA); [|exact P|exact L|].
  - intros a b x _. apply convert_def_alike; assumption.
  - rewrite L'. cbn [rbind]. eexists. split; [reflexivity|apply perm2_concat; exact LA].
Qed.

(** ** Documents *)
Lemma import_schema_alike name i doc doc' s : doc_maps doc -> doc_one_success doc -> doc_alike doc doc' -> import_schema name i doc = Ok s ->
  exists s', import_schema name i doc' = Ok s' /\ schema_alike s s'.
Proof.
  intros M U A. unfold import_schema. intros E. apply rbind_Ok in E. destruct E as (tds & T & E). apply rbind_Ok in E. destruct E as (hs & H & E). injection E as <-.
  destruct (import_types_alike _ _ _ (proj1 M) (proj1 A) T) as (tds' & T' & TA). destruct (import_paths_alike _ _ _ M U A H) as (hs' & H' & HA).
  rewrite T', H'. cbn [rbind]. eexists. split; [reflexivity|]. repeat (split; [reflexivity|]). split; [exact TA|exact HA].
Qed.
Lemma perm2_names {A} (f : A -> string) (R : A -> A -> Prop) l l' : (forall a b, R a b -> f a = f b) -> perm2 R l l' -> Permutation (map f l) (map f l').
Proof.
  intros H (k & P & F). transitivity (map f k); [apply Permutation_map; exact P|]. replace (map f k) with (map f l'); [apply Permutation_refl|].
  clear P. induction F as [|x y k l' X F IH]; [reflexivity|]. simpl. rewrite IH, (H _ _ X). reflexivity.
Qed.
Lemma to_sadl_alike name i doc doc' m : doc_maps doc -> doc_one_success doc -> doc_alike doc doc' -> to_sadl name i doc = Ok m ->
  exists m', to_sadl name i doc' = Ok m' /\ schema_alike (m_schema m) (m_schema m').
Proof.
  intros M U A. unfold to_sadl. intros E. apply rbind_Ok in E. destruct E as (s & S & E).
  destruct (import_schema_alike _ _ _ _ _ M U A S) as (s' & S' & SA). rewrite S'. cbn [rbind].
  destruct (new_model s) as [m0| | |] eqn:N; try discriminate. injection E as <-. destruct (new_model_inv _ _ N) as (E0 & _). rewrite E0.
  assert (C : collision_free s) by (apply (proj2 (proj2 (new_model_iff s)) _ N)).
  assert (C' : collision_free s').
  { destruct SA as (_ & _ & _ & _ & _ & _ & _ & TA & HA). destruct C as (C1 & C2 & C3).
    assert (PT := perm2_names td_name td_alike _ _ (fun a b X => proj1 X) TA). assert (PH := perm2_names h_name http_alike _ _ (fun a b X => proj1 X) HA).
    split; [exact (Permutation_NoDup PT C1)|]. split; [|exact (Permutation_NoDup PH C3)].
    intros td I B. apply (in_map td_name) in I. apply (Permutation_in _ (Permutation_sym PT)) in I. apply in_map_iff in I. destruct I as (td0 & E & I).
    apply (C2 _ I). rewrite E. exact B. }
  destruct (proj1 (new_model_iff s') C') as (m' & N'). rewrite N'. exists m'. split; [reflexivity|]. rewrite (proj1 (new_model_inv _ _ N')). exact SA.
Qed.
