From Verif Require Import GoStr Outcome Value Schema Misc Model Time HttpTrace Swagger Trace
  SpecTime SpecMisc SpecPV SpecGen SpecTrace TimeFacts MiscFacts ModelFacts PVFacts GenFacts.
From Coq Require Import Permutation.

(** ** Lists *)
Lemma last_cons {A} (P : A -> Prop) x l y :
  last_that P (x :: l) y <-> last_that P l y \/ (P x /\ y = x /\ forall z, In z l -> ~ P z).
Proof.
  split.
  - intros (l1 & l2 & E & Py & N). destruct l1 as [|a l1]; injection E as -> ->.
    + right. auto.
    + left. exists l1, l2. auto.
  - intros [(l1 & l2 & -> & Py & N)|(Px & -> & N)].
    + exists (x :: l1), l2. auto.
    + exists [], l. auto.
Qed.
Lemma last_nil {A} (P : A -> Prop) y : ~ last_that P [] y.
Proof. intros (l1 & l2 & E & _). destruct l1; discriminate. Qed.
Lemma last_or_none {A} (P : A -> Prop) l : (forall x, In x l -> P x \/ ~ P x) ->
  (forall x, In x l -> ~ P x) \/ exists y, last_that P l y.
Proof.
  induction l as [|x l IH]; intros D; [left; intros x []|].
  destruct IH as [N|[y L]]; [intros z Hz; apply D; right; exact Hz| |].
  - destruct (D x (or_introl eq_refl)) as [Px|Nx].
    + right. exists x. apply last_cons. right. auto.
    + left. intros z [<- |Hz]; [exact Nx|now apply N].
  - right. exists y. apply last_cons. now left.
Qed.
Lemma last_in {A} (P : A -> Prop) l y : last_that P l y -> In y l /\ P y.
Proof. intros (l1 & l2 & -> & Py & _). split; [apply in_or_app; right; left; reflexivity|exact Py]. Qed.
Lemma last_fun {A} (P : A -> Prop) l x y : last_that P l x -> last_that P l y -> x = y.
Proof.
  induction l as [|z l IH]; intros H K; [destruct (last_nil _ _ H)|].
  apply last_cons in H as [H|(Pz & -> & N)], K as [K|(Pz' & -> & N')]; [auto| | |reflexivity].
  - apply last_in in H as [I J]. destruct (N' _ I J).
  - apply last_in in K as [I J]. destruct (N _ I J).
Qed.
Lemma last_ext {A} (P Q : A -> Prop) l y : (forall x, P x <-> Q x) -> last_that P l y -> last_that Q l y.
Proof.
  intros E (l1 & l2 & -> & Py & N). exists l1, l2. split; [reflexivity|]. split; [now apply E|].
  intros z Hz Qz. apply (N z Hz). now apply E.
Qed.

(** ** Names *)
Lemma large_first_iff n s : large_first n s <-> capitalize n = s.
Proof.
  unfold large_first, capitalize, upper1, is_ascii7, to_upper_ch, case_pair, upper_letter, lower_letter, ascii7.
  destruct n as [|c r].
  - split; [intros [[_ ->]|(c & r & E & _)]; [reflexivity|discriminate]|intros <-; auto].
  - split.
    + intros [[E _]|(c' & r' & E & H)]; [discriminate|]. injection E as <- <-.
      destruct H as [(u & (Hu & Hl & Hc) & ->)|[(Hu & Ha & ->)|(Ha & ->)]].
      * destruct (nat_of_ascii c <? 128) eqn:E1; [|apply Nat.ltb_ge in E1; lia].
        assert (Hup : is_lower c = true) by (apply is_lower_iff; exact Hl).
        rewrite Hup. cbn [append]. f_equal. replace (nat_of_ascii c - 32) with (nat_of_ascii u) by lia. apply ascii_nat_embedding.
      * apply Nat.ltb_lt in Ha. rewrite Ha.
        destruct (is_lower c) eqn:E; [|reflexivity]. apply is_lower_iff in E. contradiction.
      * apply Nat.ltb_nlt in Ha. now rewrite Ha.
    + intros <-. right. exists c, r. split; [reflexivity|].
      destruct (nat_of_ascii c <? 128) eqn:E1; [apply Nat.ltb_lt in E1|apply Nat.ltb_nlt in E1; right; right; auto].
      destruct (is_lower c) eqn:E.
      * left. apply is_lower_iff in E. unfold lower_letter in E.
        eexists. split; [|reflexivity]. rewrite nat_ascii_embedding by lia. lia.
      * right. left. split; [|split; [exact E1|reflexivity]].
        intro H. assert (is_lower c = true) by (apply is_lower_iff; exact H). congruence.
Qed.
Lemma for_part_iff h part t : for_part h part t <-> t = capitalize (h_name h) +++ part.
Proof.
  unfold for_part. split; [intros (u & H & ->); apply large_first_iff in H; now subst|].
  intros ->. eexists. split; [now apply large_first_iff|reflexivity].
Qed.

Section H.
Context (h : httpdef).
Let rq : string := capitalize (h_name h) +++ "Request".
Let rs : string := capitalize (h_name h) +++ "Response".

Lemma rq_rs : rq <> rs.
Proof. unfold rq, rs. intros E. apply append_inj_l in E. discriminate. Qed.
Lemma request_iff ex : for_request h ex <-> ex_target ex = rq.
Proof. apply for_part_iff. Qed.
Lemma response_iff ex : for_response h ex <-> ex_target ex = rs.
Proof.
  unfold for_response. rewrite request_iff, for_part_iff. fold rs. split; [tauto|].
  intros E. split; [rewrite E; intros C; exact (rq_rs (eq_sym C))|exact E].
Qed.
Lemma exception_iff ex e : for_exception h ex e <->
  ex_target ex <> rq /\ ex_target ex <> rs /\ last_that (fun e => xc_type e = ex_target ex) (h_exceptions h) e.
Proof. unfold for_exception. now rewrite request_iff, response_iff. Qed.
Lemma exception_some ex : (exists e, for_exception h ex e) <->
  ex_target ex <> rq /\ ex_target ex <> rs /\ In (ex_target ex) (map xc_type (h_exceptions h)).
Proof.
  split.
  - intros (e & He). apply exception_iff in He as (A & B & L). apply last_in in L as [I E]. split; [exact A|]. split; [exact B|].
    rewrite <- E. now apply in_map.
  - intros (A & B & I). destruct (last_or_none (fun e => xc_type e = ex_target ex) (h_exceptions h)) as [N|[e L]].
    + intros x _. destruct (string_dec (xc_type x) (ex_target ex)); auto.
    + apply in_map_iff in I as (e & E & I). destruct (N e I E).
    + exists e. apply exception_iff. auto.
Qed.
Lemma answer_iff ex : for_answer h ex <->
  ex_target ex <> rq /\ (ex_target ex = rs \/ In (ex_target ex) (map xc_type (h_exceptions h))).
Proof.
  unfold for_answer. rewrite response_iff, exception_some. split.
  - intros [E|(A & B & I)]; [|auto]. split; [rewrite E; intros C; exact (rq_rs (eq_sym C))|now left].
  - intros (A & [B|B]); [now left|]. destruct (string_dec (ex_target ex) rs) as [E|E]; [now left|right; auto].
Qed.

(** ** The requests *)
Definition ask (n : string) (ex : exampledef) : Prop := ex_target ex = rq /\ ex_name ex = n.
Lemma ask_dec n ex : ask n ex \/ ~ ask n ex.
Proof.
  unfold ask. destruct (string_dec (ex_target ex) rq), (string_dec (ex_name ex) n); tauto.
Qed.
Lemma object_cases v : (exists l, object_of v = Ok l /\ v = VMap l) \/ (object_of v = Panic /\ forall l, v <> VMap l).
Proof. destruct v; try (right; split; [reflexivity|intros ?; discriminate]). left. eexists. split; reflexivity. Qed.

Lemma collect_requests_spec exs : forall acc, NoDup (keys acc) ->
  (exists acc', collect_requests rq exs acc = Ok acc' /\ NoDup (keys acc')
     /\ (forall n d, assoc n acc' = Some d <->
          (exists ex l, last_that (ask n) exs ex /\ ex_example ex = VMap l /\ d = mkExData l None None)
          \/ ((forall ex, In ex exs -> ~ ask n ex) /\ assoc n acc = Some d))
     /\ forall ex, In ex exs -> ex_target ex = rq -> exists l, ex_example ex = VMap l)
  \/ (collect_requests rq exs acc = Panic /\ exists ex, In ex exs /\ ex_target ex = rq /\ forall l, ex_example ex <> VMap l).
Proof.
  induction exs as [|ex exs IH]; intros acc ND.
  - left. exists acc. split; [reflexivity|]. split; [exact ND|]. split; [|intros ex []].
    intros n d. split; [intros E; right; split; [intros ex []|exact E]|].
    intros [(ex & l & L & _)|[_ E]]; [destruct (last_nil _ _ L)|exact E].
  - cbn [collect_requests]. destruct (ex_target ex =?s rq) eqn:T.
    + apply seqb_eq in T. destruct (object_cases (ex_example ex)) as [(l & O & Ev)|[O Nv]]; rewrite O.
      * cbn [rbind]. destruct (IH (assoc_set (ex_name ex) (mkExData l None None) acc)) as [(acc' & R & ND' & S & Ob)|(R & x & Ix & Tx & Nx)].
        { now apply assoc_set_NoDup. }
        -- left. exists acc'. split; [exact R|]. split; [exact ND'|]. split.
           ++ intros n d. rewrite S. split.
              ** intros [(x & l' & L & Ex & ->)|[N E]].
                 { left. exists x, l'. split; [apply last_cons; now left|auto]. }
                 destruct (string_dec n (ex_name ex)) as [-> |Ne].
                 { rewrite assoc_set_same in E. injection E as <-. left. exists ex, l. split; [|auto].
                   apply last_cons. right. split; [split; auto|]. auto. }
                 rewrite assoc_set_other in E by exact Ne. right. split; [|exact E].
                 intros x [<- |Hx] [Ht Hn]; [now apply Ne|]. apply (N x Hx). now split.
              ** intros [(x & l' & L & Ex & ->)|[N E]].
                 { apply last_cons in L as [L|((_ & En) & -> & N)]; [left; exists x, l'; auto|].
                   right. split; [exact N|]. subst n. rewrite assoc_set_same. rewrite Ev in Ex. injection Ex as ->. reflexivity. }
                 right. split; [intros x Hx; apply N; now right|]. rewrite assoc_set_other; [exact E|].
                 intros ->. apply (N ex (or_introl eq_refl)). now split.
           ++ intros x [<- |Hx]; [intros _; exists l; exact Ev|now apply Ob].
        -- right. split; [exact R|]. exists x. split; [now right|auto].
      * right. split; [reflexivity|]. exists ex. split; [now left|auto].
    + apply seqb_neq in T. destruct (IH acc ND) as [(acc' & R & ND' & S & Ob)|(R & x & Ix & Tx & Nx)].
      * left. exists acc'. split; [exact R|]. split; [exact ND'|]. split.
        -- intros n d. rewrite S. split.
           ++ intros [(x & l' & L & Ex)|[N E]]; [left; exists x, l'; split; [apply last_cons; now left|exact Ex]|].
              right. split; [|exact E]. intros x [<- |Hx]; [intros [C _]; contradiction|now apply N].
           ++ intros [(x & l' & L & Ex)|[N E]].
              ** apply last_cons in L as [L|((C & _) & _)]; [left; exists x, l'; auto|contradiction].
              ** right. split; [intros x Hx; apply N; now right|exact E].
        -- intros x [<- |Hx]; [intros C; contradiction|now apply Ob].
      * right. split; [exact R|]. exists x. split; [now right|auto].
Qed.

(** ** The answers *)
Lemma match_exceptions_spec excs ex : forall d,
  (exists d', match_exceptions excs ex d = Ok d'
     /\ ((~ In (ex_target ex) (map xc_type excs) /\ d' = d)
         \/ exists e l, last_that (fun e => xc_type e = ex_target ex) excs e /\ ex_example ex = VMap l
              /\ d' = mkExData (xd_req d) (Some e) (Some l)))
  \/ (match_exceptions excs ex d = Panic /\ In (ex_target ex) (map xc_type excs) /\ forall l, ex_example ex <> VMap l).
Proof.
  induction excs as [|e excs IH]; intros d.
  - left. exists d. split; [reflexivity|]. left. split; [intros []|reflexivity].
  - cbn [match_exceptions]. destruct (xc_type e =?s ex_target ex) eqn:T.
    + apply seqb_eq in T. destruct (object_cases (ex_example ex)) as [(l & O & Ev)|[O Nv]]; rewrite O; cbn [rbind].
      * destruct (IH (mkExData (xd_req d) (Some e) (Some l))) as [(d' & R & S)|(R & I & N)].
        -- left. exists d'. split; [exact R|]. right. destruct S as [[N ->]|(e' & l' & L & Ex & ->)].
           ++ exists e, l. split; [|auto]. apply last_cons. right. split; [exact T|]. split; [reflexivity|].
              intros z Hz C. apply N. rewrite <- C. now apply in_map.
           ++ exists e', l'. split; [apply last_cons; now left|auto].
        -- destruct (N l Ev).
      * right. split; [reflexivity|]. split; [left; exact T|exact Nv].
    + apply seqb_neq in T. destruct (IH d) as [(d' & R & S)|(R & I & N)].
      * left. exists d'. split; [exact R|]. destruct S as [[N ->]|(e' & l' & L & Ex & ->)].
        -- left. split; [|reflexivity]. intros [C|C]; [now apply T|now apply N].
        -- right. exists e', l'. split; [apply last_cons; now left|auto].
      * right. split; [exact R|]. split; [now right|exact N].
Qed.

Definition ans (n : string) (ex : exampledef) : Prop :=
  (ex_target ex <> rq /\ (ex_target ex = rs \/ In (ex_target ex) (map xc_type (h_exceptions h)))) /\ ex_name ex = n.
Definition exc (n : string) (ex : exampledef) : Prop :=
  (ex_target ex <> rq /\ ex_target ex <> rs /\ In (ex_target ex) (map xc_type (h_exceptions h))) /\ ex_name ex = n.
Lemma ans_dec n ex : ans n ex \/ ~ ans n ex.
Proof.
  unfold ans. destruct (string_dec (ex_target ex) rq), (string_dec (ex_target ex) rs), (string_dec (ex_name ex) n),
    (in_dec string_dec (ex_target ex) (map xc_type (h_exceptions h))); tauto.
Qed.
Lemma exc_dec n ex : exc n ex \/ ~ exc n ex.
Proof.
  unfold exc. destruct (string_dec (ex_target ex) rq), (string_dec (ex_target ex) rs), (string_dec (ex_name ex) n),
    (in_dec string_dec (ex_target ex) (map xc_type (h_exceptions h))); tauto.
Qed.
Lemma exc_ans n ex : exc n ex -> ans n ex.
Proof. unfold exc, ans. tauto. Qed.

(** what the second loop makes of the data of one name *)
Definition after (n : string) (exs : list exampledef) (d d' : exdata) : Prop :=
  xd_req d' = xd_req d
  /\ (((forall ex, In ex exs -> ~ ans n ex) /\ xd_res d' = xd_res d)
      \/ exists ex l, last_that (ans n) exs ex /\ ex_example ex = VMap l /\ xd_res d' = Some l)
  /\ (((forall ex, In ex exs -> ~ exc n ex) /\ xd_exc d' = xd_exc d)
      \/ exists ex e, last_that (exc n) exs ex /\ for_exception h ex e /\ xd_exc d' = Some e).

Lemma after_skip n ex exs d d' : ~ ans n ex -> after n exs d d' -> after n (ex :: exs) d d'.
Proof.
  intros N (A & B & C). split; [exact A|]. split.
  - destruct B as [[B E]|(x & l & L & R)]; [left|right].
    + split; [|exact E]. intros x [<- |Hx]; [exact N|now apply B].
    + exists x, l. split; [apply last_cons; now left|exact R].
  - assert (N' : ~ exc n ex) by (intros K; apply N, exc_ans, K). destruct C as [[B' E]|(x & l & L & R)]; [left|right].
    + split; [|exact E]. intros x [<- |Hx]; [exact N'|now apply B'].
    + exists x, l. split; [apply last_cons; now left|exact R].
Qed.

Lemma collect_answers_spec exs : forall acc, NoDup (keys acc) ->
  (exists acc', collect_answers rq rs (h_exceptions h) exs acc = Ok acc' /\ keys acc' = keys acc
     /\ (forall n d, assoc n acc = Some d -> exists d', assoc n acc' = Some d' /\ after n exs d d')
     /\ forall ex n, In ex exs -> ans n ex -> In n (keys acc) -> exists l, ex_example ex = VMap l)
  \/ (collect_answers rq rs (h_exceptions h) exs acc = Panic
      /\ exists ex n, In ex exs /\ ans n ex /\ In n (keys acc) /\ forall l, ex_example ex <> VMap l).
Proof.
  induction exs as [|ex exs IH]; intros acc ND.
  - left. exists acc. split; [reflexivity|]. split; [reflexivity|]. split; [|intros ex n []].
    intros n d E. exists d. split; [exact E|]. split; [reflexivity|]. split; left; (split; [intros ex []|reflexivity]).
  - assert (Skip : (forall n, In n (keys acc) -> ~ ans n ex) ->
      (exists acc', collect_answers rq rs (h_exceptions h) exs acc = Ok acc' /\ keys acc' = keys acc
         /\ (forall n d, assoc n acc = Some d -> exists d', assoc n acc' = Some d' /\ after n (ex :: exs) d d')
         /\ forall x n, In x (ex :: exs) -> ans n x -> In n (keys acc) -> exists l, ex_example x = VMap l)
      \/ (collect_answers rq rs (h_exceptions h) exs acc = Panic
          /\ exists x n, In x (ex :: exs) /\ ans n x /\ In n (keys acc) /\ forall l, ex_example x <> VMap l)).
    { intros N. destruct (IH acc ND) as [(acc' & R & K & S & Ob)|(R & x & n & Ix & An & In' & Nx)].
      - left. exists acc'. split; [exact R|]. split; [exact K|]. split.
        + intros n d E. destruct (S n d E) as (d' & E' & A). exists d'. split; [exact E'|]. apply after_skip; [|exact A].
          apply N. apply assoc_In in E. apply (in_map fst) in E. exact E.
        + intros x n [<- |Hx] An In'; [destruct (N n In' An)|now apply (Ob x n)].
      - right. split; [exact R|]. exists x, n. split; [now right|auto]. }
    cbn [collect_answers]. destruct (ex_target ex =?s rq) eqn:T.
    { apply seqb_eq in T. apply Skip. intros n _ [[C _] _]. contradiction. }
    apply seqb_neq in T. destruct (assoc (ex_name ex) acc) as [d0|] eqn:A.
    2:{ apply Skip. intros n I [_ En]. apply assoc_None in A. subst n. contradiction. }
    assert (Ik : In (ex_name ex) (keys acc)) by (apply assoc_In in A; apply (in_map fst) in A; exact A).
    assert (Go : forall d1 l, ex_example ex = VMap l -> ans (ex_name ex) ex -> xd_req d1 = xd_req d0 -> xd_res d1 = Some l ->
      ((~ exc (ex_name ex) ex /\ xd_exc d1 = xd_exc d0) \/ exists e, for_exception h ex e /\ exc (ex_name ex) ex /\ xd_exc d1 = Some e) ->
      (exists acc', collect_answers rq rs (h_exceptions h) exs (assoc_set (ex_name ex) d1 acc) = Ok acc' /\ keys acc' = keys acc
         /\ (forall n d, assoc n acc = Some d -> exists d', assoc n acc' = Some d' /\ after n (ex :: exs) d d')
         /\ forall x n, In x (ex :: exs) -> ans n x -> In n (keys acc) -> exists l, ex_example x = VMap l)
      \/ (collect_answers rq rs (h_exceptions h) exs (assoc_set (ex_name ex) d1 acc) = Panic
          /\ exists x n, In x (ex :: exs) /\ ans n x /\ In n (keys acc) /\ forall l, ex_example x <> VMap l)).
    { intros d1 l Ev An Rq Rs Ex.
      assert (Ks : keys (assoc_set (ex_name ex) d1 acc) = keys acc).
      { clear - Ik. induction acc as [|[k v] acc IHa]; [destruct Ik|]. cbn. destruct (ex_name ex =?s k) eqn:E.
        - apply seqb_eq in E. now subst k.
        - cbn. f_equal. apply IHa. destruct Ik as [C|C]; [cbn in C; subst k; rewrite seqb_refl in E; discriminate|exact C]. }
      destruct (IH (assoc_set (ex_name ex) d1 acc)) as [(acc' & R & K & S & Ob)|(R & x & n & Ix & An' & In' & Nx)].
      { rewrite Ks. exact ND. }
      - left. exists acc'. split; [exact R|]. split; [now rewrite K|]. split.
        + intros n d E. destruct (string_dec n (ex_name ex)) as [-> |Ne].
          * rewrite A in E. injection E as <-. destruct (S (ex_name ex) d1 (assoc_set_same _ _ _)) as (d' & E' & Aq & As & Ax).
            exists d'. split; [exact E'|]. split; [congruence|]. split.
            -- right. destruct As as [[N Er]|(x & l' & L & Er)].
               ++ exists ex, l. split; [apply last_cons; right; auto|]. split; [exact Ev|congruence].
               ++ exists x, l'. split; [apply last_cons; now left|exact Er].
            -- destruct Ax as [[N Er]|(x & l' & L & Er)].
               ++ destruct Ex as [[Nx Ee]|(e & F & X & Ee)].
                  ** left. split; [|congruence]. intros x [<- |Hx]; [exact Nx|now apply N].
                  ** right. exists ex, e. split; [apply last_cons; right; auto|]. split; [exact F|congruence].
               ++ right. exists x, l'. split; [apply last_cons; now left|exact Er].
          * destruct (S n d) as (d' & E' & Af). { now rewrite assoc_set_other. }
            exists d'. split; [exact E'|]. apply after_skip; [|exact Af]. intros [_ C]. now apply Ne.
        + intros x n [<- |Hx] An' In'; [exists l; exact Ev|]. apply (Ob x n Hx An'). now rewrite Ks.
      - right. split; [exact R|]. exists x, n. split; [now right|]. split; [exact An'|]. rewrite Ks in In'. auto. }
    destruct (ex_target ex =?s rs) eqn:T2.
    + apply seqb_eq in T2. assert (An : ans (ex_name ex) ex) by (split; [split; [exact T|now left]|reflexivity]).
      destruct (object_cases (ex_example ex)) as [(l & O & Ev)|[O Nv]]; rewrite O; cbn [rbind].
      * apply (Go _ l Ev An); [reflexivity|reflexivity|]. left. split; [|reflexivity]. intros [(_ & C & _) _]. contradiction.
      * right. split; [reflexivity|]. exists ex, (ex_name ex). split; [now left|auto].
    + apply seqb_neq in T2. destruct (match_exceptions_spec (h_exceptions h) ex d0) as [(d1 & R & S)|(R & I & N)]; rewrite R; cbn [rbind].
      * destruct S as [[Ni ->]|(e & l & L & Ev & ->)].
        -- assert (Same : assoc_set (ex_name ex) d0 acc = acc).
           { clear - A. induction acc as [|[k v] acc IHa]; [discriminate|]. cbn in *. destruct (ex_name ex =?s k) eqn:E.
             - apply seqb_eq in E. injection A as ->. now subst k.
             - f_equal. now apply IHa. }
           rewrite Same. apply Skip. intros n _ [[_ [C|C]] _]; contradiction.
        -- assert (I : In (ex_target ex) (map xc_type (h_exceptions h))).
           { apply last_in in L as [Ie Te]. rewrite <- Te. now apply in_map. }
           apply (Go _ l Ev); [split; [split; auto|reflexivity]|reflexivity|reflexivity|].
           right. exists e. split; [apply exception_iff; auto|]. split; [split; auto|reflexivity].
      * right. split; [reflexivity|]. exists ex, (ex_name ex). split; [now left|]. split; [split; [auto|reflexivity]|auto].
Qed.
End H.
