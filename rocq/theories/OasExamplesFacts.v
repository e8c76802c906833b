From Coq Require Import Permutation.
From Verif Require Import GoStr Outcome Value Schema Misc Model ParserValidate OpenApi OasExamples
  SpecModel SpecPV SpecGen SpecTrace SpecOpenApi SpecOasExamples ModelFacts PVFacts GenFacts TraceFacts OpenApiFacts GoRoute SprintFacts.

(** ** The methods of a path *)
Lemma ahead_iff a b : ahead a b <-> In (a, b) [("GET", "PUT"); ("GET", "DELETE"); ("GET", "POST"); ("PUT", "DELETE"); ("PUT", "POST"); ("DELETE", "POST")].
Proof.
  split.
  - intros (l1 & l2 & l3 & E). unfold written_methods in E.
    do 4 (destruct l1 as [|? l1]; [injection E as <- E; do 4 (destruct l2 as [|? l2]; [try discriminate E; injection E as <- E; cbn; tauto|
      try discriminate E; injection E as _ E]); destruct l2; discriminate E|injection E as _ E]). destruct l1; discriminate E.
  - cbn [In]. intros [E|[E|[E|[E|[E|[E|[]]]]]]]; injection E as <- <-.
    + exists [], [], ["DELETE"; "POST"]. reflexivity.
    + exists [], ["PUT"], ["POST"]. reflexivity.
    + exists [], ["PUT"; "DELETE"], []. reflexivity.
    + exists ["GET"], [], ["POST"]. reflexivity.
    + exists ["GET"], ["DELETE"], []. reflexivity.
    + exists ["GET"; "PUT"], [], []. reflexivity.
Qed.
Lemma first_op_spec pi : NoDup (map fst pi) -> (forall mth o, In (mth, o) pi -> In mth written_methods) ->
  match first_op pi with
  | None => forall mth o, ~ In (mth, o) pi
  | Some (mth, o) => In (mth, o) pi /\ forall mth' o', In (mth', o') pi -> ~ ahead mth' mth
  end.
Proof.
  intros N W. unfold first_op.
  assert (NO : forall k, get k pi = None -> forall o, ~ In (k, o) pi) by (intros k G o I; apply get_None in G; apply G; apply (in_map fst) in I; exact I).
  assert (YES : forall k o, get k pi = Some o -> In (k, o) pi) by (intros k o G; apply (get_In _ _ _ N) in G; exact G).
  assert (SPLIT : forall mth o, In (mth, o) pi -> mth = "GET" \/ mth = "PUT" \/ mth = "DELETE" \/ mth = "POST").
  { intros mth o I. apply W in I. cbn in I. intuition. }
  destruct (get "GET" pi) as [o|] eqn:G1; [split; [exact (YES _ _ G1)|]; intros k x I A; apply ahead_iff in A; cbn in A; intuition congruence|].
  destruct (get "PUT" pi) as [o|] eqn:G2; [split; [exact (YES _ _ G2)|]; intros k x I A; apply ahead_iff in A; cbn in A|].
  { assert (k = "GET") as -> by (intuition congruence). exact (NO _ G1 _ I). }
  destruct (get "DELETE" pi) as [o|] eqn:G3; [split; [exact (YES _ _ G3)|]; intros k x I A; apply ahead_iff in A; cbn in A|].
  { assert (k = "GET" \/ k = "PUT") as [-> | ->] by (intuition congruence); [exact (NO _ G1 _ I)|exact (NO _ G2 _ I)]. }
  destruct (get "POST" pi) as [o|] eqn:G4; [split; [exact (YES _ _ G4)|]; intros k x I A; apply ahead_iff in A; cbn in A|].
  { assert (k = "GET" \/ k = "PUT" \/ k = "DELETE") as [-> |[-> | ->]] by (intuition congruence);
      [exact (NO _ G1 _ I)|exact (NO _ G2 _ I)|exact (NO _ G3 _ I)]. }
  intros k o I. destruct (SPLIT _ _ I) as [-> |[-> |[-> | ->]]]; [exact (NO _ G1 _ I)|exact (NO _ G2 _ I)|exact (NO _ G3 _ I)|exact (NO _ G4 _ I)].
Qed.

(** ** Lists of entries *)
Lemma last_app {A} (P : A -> Prop) l1 l2 y :
  last_that P (l1 ++ l2) y <-> last_that P l2 y \/ (last_that P l1 y /\ forall z, In z l2 -> ~ P z).
Proof.
  induction l1 as [|x l1 IH]; cbn [app].
  - split; [auto|]. intros [H|[H _]]; [exact H|destruct (last_nil _ _ H)].
  - rewrite !last_cons, IH. split.
    + intros [[H|[H N]]|(Px & -> & N)]; [auto|right; split; [left; exact H|exact N]|].
      right. split; [right; split; [exact Px|split; [reflexivity|]]|]; intros z I; apply N; apply in_or_app; auto.
    + intros [H|[[H|(Px & -> & N)] N2]]; [auto|left; right; split; assumption|].
      right. split; [exact Px|]. split; [reflexivity|]. intros z I. apply in_app_or in I as [I|I]; [exact (N z I)|exact (N2 z I)].
Qed.
Definition entry_eq_dec (a b : place * string) : {a = b} + {a <> b}.
Proof. decide equality; [apply string_dec|decide equality; try apply string_dec; apply PeanoNat.Nat.eq_dec]. Qed.
Definition functional (l : shown_examples) : Prop := forall at_ n v w, In (at_, n, v) l -> In (at_, n, w) l -> v = w.
Lemma stands_functional l at_ n v : functional l -> (stands l at_ n v <-> In (at_, n, v) l).
Proof.
  intros F. split; [intros H; apply last_in in H; tauto|]. intros I. unfold stands.
  destruct (last_or_none (fun e : place * string * value => fst e = (at_, n)) l) as [N|[[[a k] w] L]].
  - intros x _. destruct (entry_eq_dec (fst x) (at_, n)); auto.
  - exfalso. exact (N _ I eq_refl).
  - assert (X := last_in _ _ _ L). destruct X as [J E]. cbn [fst] in E. injection E as -> ->. rewrite (F _ _ _ _ I J). exact L.
Qed.
Lemma at_params_In p mth name k v ps : forall i e, In e (at_params p mth name k v ps i) <->
  exists j q, nth_error ps j = Some q /\ op_pname q = k /\ e = (AtParam p mth (i + j), name, v).
Proof.
  induction ps as [|q ps IH]; intros i e; cbn [at_params].
  - split; [intros []|]. intros (j & q & E & _). destruct j; discriminate.
  - rewrite in_app_iff, IH. split.
    + intros [H|(j & x & E & N & ->)].
      * destruct (op_pname q =?s k) eqn:Q; [|destruct H]. apply seqb_eq in Q. destruct H as [<-|[]]. exists 0, q.
        split; [reflexivity|]. split; [exact Q|]. rewrite PeanoNat.Nat.add_0_r. reflexivity.
      * exists (S j), x. split; [exact E|]. split; [exact N|]. rewrite PeanoNat.Nat.add_succ_r. reflexivity.
    + intros ([|j] & x & E & N & ->).
      * left. injection E as ->. rewrite (proj2 (seqb_eq _ _) N), PeanoNat.Nat.add_0_r. left. reflexivity.
      * right. exists j, x. split; [exact E|]. split; [exact N|]. rewrite PeanoNat.Nat.add_succ_r. reflexivity.
Qed.
(** the parameters of an operation called [k] *)
Definition called (o : ooperation) (i : nat) (k : string) : Prop := exists q, nth_error (oo_params o) i = Some q /\ op_pname q = k.
Lemma at_params_0 p mth name k v o e : In e (at_params p mth name k v (oo_params o) 0) <-> exists i, called o i k /\ e = (AtParam p mth i, name, v).
Proof.
  rewrite at_params_In. split.
  - intros (j & q & E & N & ->). exists j. split; [exists q; auto|reflexivity].
  - intros (j & (q & E & N) & ->). exists j, q. auto.
Qed.
Lemma request_entries_spec p mth name o l : forall acc,
  match request_entries p mth name o l acc with
  | Ok l' => exists new, l' = acc ++ new /\ (forall v, In ("body", v) l -> oo_body o <> None)
      /\ forall e, In e new <-> (exists v, In ("body", v) l /\ e = (AtBody p mth, name, v))
            \/ exists i k v, In (k, v) l /\ k <> "body" /\ called o i k /\ e = (AtParam p mth i, name, v)
  | Panic => oo_body o = None /\ exists v, In ("body", v) l
  | _ => False
  end.
Proof.
  induction l as [|[k v] l IH]; intros acc; cbn [request_entries].
  - exists []. split; [symmetry; apply app_nil_r|]. split; [intros v []|]. intros e. split; [intros []|].
    intros [(v & [] & _)|(i & k & v & [] & _)].
  - destruct (k =?s "body") eqn:K.
    + apply seqb_eq in K. subst k. destruct (oo_body o) as [b|] eqn:B.
      * specialize (IH (acc ++ [(AtBody p mth, name, v)])). destruct (request_entries _ _ _ _ l _) as [l'| | |]; try contradiction.
        -- destruct IH as (new & -> & NB & H). exists ((AtBody p mth, name, v) :: new). split; [rewrite <- app_assoc; reflexivity|].
           split; [intros; discriminate|]. intros e. cbn [In]. rewrite H. split.
           ++ intros [<-|[(w & I & ->)|(i & k & w & I & R)]]; [left; exists v; auto|left; exists w; auto|right; exists i, k, w; auto].
           ++ intros [(w & [E|I] & ->)|(i & k & w & [E|I] & R)].
              ** injection E as ->. left. reflexivity.
              ** right. left. exists w. auto.
              ** injection E as <- ->. destruct R as [X _]. destruct (X eq_refl).
              ** right. right. exists i, k, w. auto.
        -- destruct IH as [X _]. discriminate.
      * split; [reflexivity|]. exists v. left. reflexivity.
    + assert (K' : k <> "body") by (intros ->; rewrite seqb_refl in K; discriminate).
      specialize (IH (acc ++ at_params p mth name k v (oo_params o) 0)). destruct (request_entries _ _ _ _ l _) as [l'| | |]; try contradiction.
      * destruct IH as (new & -> & NB & H). exists (at_params p mth name k v (oo_params o) 0 ++ new). split; [rewrite <- app_assoc; reflexivity|].
        split; [intros w [E|I]; [injection E as -> _; contradiction|exact (NB _ I)]|]. intros e. rewrite in_app_iff, H, at_params_0. cbn [In]. split.
        -- intros [(i & C & ->)|[(w & I & ->)|(i & k' & w & I & R)]].
           ++ right. exists i, k, v. auto.
           ++ left. exists w. auto.
           ++ right. exists i, k', w. auto.
        -- intros [(w & [E|I] & ->)|(i & k' & w & [E|I] & R)].
           ++ injection E as -> _. contradiction.
           ++ right. left. exists w. auto.
           ++ injection E as <- <-. left. exists i. tauto.
           ++ right. right. exists i, k', w. auto.
      * destruct IH as (B & w & I). split; [exact B|]. exists w. right. exact I.
Qed.
(** the JSON of the response of that status *)
Definition json_at (o : ooperation) (s : option string) : Prop :=
  exists k r b, s = Some k /\ get k (oo_responses o) = Some r /\ or_body r = Some b.
Lemma json_at_dec o s : json_at o s \/ ~ json_at o s.
Proof.
  destruct s as [k|]; [|right; intros (k & r & b & E & _); discriminate].
  destruct (get k (oo_responses o)) as [r|] eqn:G; [|right; intros (k' & r & b & E & G' & _); injection E as <-; congruence].
  destruct (or_body r) as [b|] eqn:B; [left; exists k, r, b; auto|].
  right. intros (k' & r' & b & E & G' & B'). injection E as <-. congruence.
Qed.
Lemma response_entries_spec p mth name o s l : forall acc,
  match response_entries p mth name o s l acc with
  | Ok l' => exists new, l' = acc ++ new /\ (forall v, In ("body", v) l -> json_at o s)
      /\ forall e, In e new <-> (exists v k, In ("body", v) l /\ s = Some k /\ e = (AtAnswer p mth k, name, v))
            \/ exists i k v, In (k, v) l /\ k <> "body" /\ called o i k /\ e = (AtParam p mth i, name, v)
  | Panic => ~ json_at o s /\ exists v, In ("body", v) l
  | _ => False
  end.
Proof.
  induction l as [|[k v] l IH]; intros acc; cbn [response_entries].
  - exists []. split; [symmetry; apply app_nil_r|]. split; [intros v []|]. intros e. split; [intros []|].
    intros [(v & k & [] & _)|(i & k & v & [] & _)].
  - destruct (k =?s "body") eqn:K.
    + apply seqb_eq in K. subst k.
      assert (BAD : ~ json_at o s -> ~ json_at o s /\ exists w, In ("body", w) (("body", v) :: l)) by (intros N; split; [exact N|exists v; left; reflexivity]).
      destruct s as [k|]; [|apply BAD; intros (k & r & b & E & _); discriminate].
      destruct (get k (oo_responses o)) as [r|] eqn:G; [|apply BAD; intros (k' & r & b & E & G' & _); injection E as <-; congruence].
      destruct (or_body r) as [b|] eqn:B; [|apply BAD; intros (k' & r' & b & E & G' & B'); injection E as <-; congruence].
      assert (J : json_at o (Some k)) by (exists k, r, b; auto).
      specialize (IH (acc ++ [(AtAnswer p mth k, name, v)])). destruct (response_entries _ _ _ _ _ l _) as [l'| | |]; try contradiction.
      * destruct IH as (new & -> & NB & H). exists ((AtAnswer p mth k, name, v) :: new). split; [rewrite <- app_assoc; reflexivity|].
        split; [intros; exact J|]. intros e. cbn [In]. rewrite H. split.
        -- intros [<-|[(w & k' & I & R)|(i & k' & w & I & R)]]; [left; exists v, k; auto|left; exists w, k'; auto|right; exists i, k', w; auto].
        -- intros [(w & k' & [E|I] & E' & ->)|(i & k' & w & [E|I] & R)].
           ++ injection E as ->. injection E' as ->. left. reflexivity.
           ++ right. left. exists w, k'. auto.
           ++ injection E as <- ->. destruct R as [X _]. destruct (X eq_refl).
           ++ right. right. exists i, k', w. auto.
      * destruct IH as [X _]. contradiction.
    + assert (K' : k <> "body") by (intros ->; rewrite seqb_refl in K; discriminate).
      specialize (IH (acc ++ at_params p mth name k v (oo_params o) 0)). destruct (response_entries _ _ _ _ _ l _) as [l'| | |]; try contradiction.
      * destruct IH as (new & -> & NB & H). exists (at_params p mth name k v (oo_params o) 0 ++ new). split; [rewrite <- app_assoc; reflexivity|].
        split; [intros w [E|I]; [injection E as -> _; contradiction|exact (NB _ I)]|]. intros e. rewrite in_app_iff, H, at_params_0. cbn [In]. split.
        -- intros [(i & C & ->)|[(w & k' & I & R)|(i & k' & w & I & R)]].
           ++ right. exists i, k, v. auto.
           ++ left. exists w, k'. auto.
           ++ right. exists i, k', w. auto.
        -- intros [(w & k' & [E|I] & E' & ->)|(i & k' & w & [E|I] & R)].
           ++ injection E as -> _. contradiction.
           ++ right. left. exists w, k'. auto.
           ++ injection E as <- <-. left. exists i. tauto.
           ++ right. right. exists i, k', w. auto.
      * destruct IH as (B & w & I). split; [exact B|]. exists w. right. exact I.
Qed.
