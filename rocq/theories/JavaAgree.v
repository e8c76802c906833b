(** Where the generated Java client and the generated Java server agree. *)
From Verif Require Import GoStr Value Schema SpecTime SpecMisc SpecModel SpecPV SpecTrace SpecGo SpecGen SpecGoServer SpecJava SpecJavaService JavaText JavaFiles GoRoute.

Lemma target_in ps ts : target_shown ps ts -> forall n pl, In (n, pl) ts <->
  exists p, In p ps /\ fd_name (ps_field p) = n /\ (ps_path p = true /\ pl = AtPath \/ ps_path p = false /\ ps_query p <> "" /\ pl = AtQuery (ps_query p)).
Proof.
  intros T. induction T as [|p l k P T IH|p l k P Q T IH|p l k P Q T IH]; intros n pl.
  - split; [intros []|intros (p & [] & _)].
  - cbn [In]. rewrite IH. split.
    + intros [E|(q & I & R)]; [|exists q; tauto]. exists p. split; [auto|]. injection E as <- <-. tauto.
    + intros (q & [<- |I] & N & D); [left|right; exists q; auto]. destruct D as [[_ ->]|(E & _)]; [congruence|congruence].
  - cbn [In]. rewrite IH. split.
    + intros [E|(q & I & R)]; [|exists q; tauto]. exists p. split; [auto|]. injection E as <- <-. tauto.
    + intros (q & [<- |I] & N & D); [left|right; exists q; auto]. destruct D as [[E _]|(_ & _ & ->)]; [congruence|congruence].
  - rewrite IH. split; intros (q & I & N & D); exists q; (split; [|auto]); [right; exact I|]. destruct I as [<- |I]; [|exact I]. destruct D as [[E _]|(_ & E & _)]; [congruence|contradiction].
Qed.
Lemma headers_in ps n k : In (n, k) (map (fun p => (fd_name (ps_field p), ps_header p)) (header_outputs ps)) <-> exists p, In p ps /\ fd_name (ps_field p) = n /\ ps_header p = k /\ k <> "".
Proof.
  rewrite in_map_iff. unfold header_outputs. split.
  - intros (p & E & I). apply filter_In in I as [I H]. exists p. split; [exact I|]. destruct (string_dec (ps_header p) ""); [discriminate|]. injection E as <- <-. auto.
  - intros (p & I & N & K & H). exists p. split; [congruence|]. apply filter_In. split; [exact I|]. destruct (string_dec (ps_header p) ""); [congruence|reflexivity].
Qed.
Lemma header_answers ps n k : In (k, n) (map (fun p => (ps_header p, fd_name (ps_field p))) (header_outputs ps)) <-> exists p, In p ps /\ fd_name (ps_field p) = n /\ ps_header p = k /\ k <> "".
Proof.
  rewrite <- headers_in, !in_map_iff. split; intros (p & E & I); exists p; (split; [congruence|exact I]).
Qed.
Lemma forall2_mem {A B} (P : A -> B -> Prop) l k : Forall2 P l k -> forall a, In a l -> exists b, In b k /\ P a b.
Proof. intros F. induction F as [|a b l k H F IH]; intros c I; [destruct I|]. destruct I as [<- |I]; [exists b; split; [left; reflexivity|exact H]|]. destruct (IH c I) as (d & J & K). exists d. split; [right; exact J|exact K]. Qed.

Section AGREE.
Context (by_name : string -> bool -> jtype -> Prop) (dec_text : decimal -> string).
Context (one : forall n b t t', by_name n b t -> by_name n b t' -> jtype_text t = jtype_text t').
Context (h : httpdef) (r : jresource) (c : jcall) (R : resource_shown by_name dec_text h r) (C : call_shown by_name h c).

Lemma placed_fun p a b : placed p a -> placed p b -> a = b.
Proof. intros [|? ?|? ? ?|(? & ? & ?)] K; inversion K as [| | |(? & ? & ?)]; try reflexivity; congruence. Qed.
Lemma reads_in n pl : listens r n pl <-> exists p, In p (h_inputs h) /\ fd_name (ps_field p) = n /\ placed p pl.
Proof.
  destruct R as (x & _ & _ & _ & _ & F & _). unfold listens. clear R C. induction F as [|p q l k Q F IH].
  - split; [intros (q & [] & _)|intros (p & [] & _)].
  - destruct Q as (N & P & _). split.
    + intros (q' & [<- |I] & N' & P'); [exists p; split; [left; reflexivity|]; split; [congruence|rewrite <- P'; exact P]|].
      destruct (proj1 IH (ex_intro _ q' (conj I (conj N' P')))) as (p' & I' & K). exists p'. split; [right; exact I'|exact K].
    + intros (p' & [<- |I] & N' & P'); [exists q; split; [left; reflexivity|]; split; [congruence|exact (placed_fun _ _ _ P P')]|].
      destruct (proj2 IH (ex_intro _ p' (conj I (conj N' P')))) as (q' & I' & K). exists q'. split; [right; exact I'|exact K].
Qed.
Lemma method_either : In (h_method h) ["PUT"; "POST"] \/ ~ In (h_method h) ["PUT"; "POST"].
Proof. destruct (in_dec string_dec (h_method h) ["PUT"; "POST"]); auto. Qed.
Lemma place_some p : exists pl, placed p pl.
Proof.
  destruct (string_dec (ps_query p) "") as [Q|Q]; [|eexists; apply pl_query; exact Q]. destruct (string_dec (ps_header p) "") as [H|H]; [|eexists; apply pl_header; assumption].
  destruct (ps_path p) eqn:P; eexists; [apply pl_path; assumption|apply pl_body; repeat split; assumption].
Qed.
Theorem inputs_agree : NoDup (map (fun p => fd_name (ps_field p)) (h_inputs h)) ->
  ((forall n pl, listens r n pl <-> sends c n pl) <-> (forall p, In p (h_inputs h) -> one_place p) /\ one_body h).
Proof.
  intros Nd. destruct C as (x & _ & _ & _ & _ & Nn & Tg & Hd & Se & _).
  assert (Same : forall p q, In p (h_inputs h) -> In q (h_inputs h) -> fd_name (ps_field p) = fd_name (ps_field q) -> p = q).
  { clear -Nd. induction (h_inputs h) as [|y l IH]; [intros p q []|]. inversion Nd as [|y' l' N D]. intros p q [<- |I] [<- |J] E; [reflexivity| | |exact (IH D p q I J E)].
    - destruct N. rewrite E. exact (in_map (fun p => fd_name (ps_field p)) l q J).
    - destruct N. rewrite <- E. exact (in_map (fun p => fd_name (ps_field p)) l p I). }
  assert (S : forall n pl, sends c n pl <-> (exists p, In p (h_inputs h) /\ fd_name (ps_field p) = n
     /\ (ps_path p = true /\ pl = AtPath \/ ps_path p = false /\ ps_query p <> "" /\ pl = AtQuery (ps_query p) \/ ps_header p <> "" /\ pl = AtHeader (ps_header p))) \/ pl = AtBody /\ jc_body c = Some n).
  { intros n pl. unfold sends. rewrite (target_in _ _ Tg), Hd. split.
    - intros [(p & I & N & D)|[(k & -> & K)|D]]; [left; exists p; tauto| |right; exact D]. apply headers_in in K as (p & I & N & <- & K). left. exists p. tauto.
    - intros [(p & I & N & D)|D]; [|right; right; exact D]. destruct D as [D|[D|(D & ->)]]; [left; exists p; tauto|left; exists p; tauto|]. right. left. exists (ps_header p). split; [reflexivity|]. apply headers_in. exists p. auto. }
  split.
  - intros A. split.
    + intros p I. pose proof (place_some p) as [pl P]. split.
      * intros Pa. assert (K : listens r (fd_name (ps_field p)) AtPath) by (apply A, S; left; exists p; tauto). apply reads_in in K as (q & J & E & K). rewrite (Same q p J I E) in K. inversion K as [| |? ? ?|]. auto.
      * intros Q. destruct (string_dec (ps_header p) "") as [H|H]; [exact H|exfalso]. assert (K : listens r (fd_name (ps_field p)) (AtHeader (ps_header p))) by (apply A, S; left; exists p; tauto).
        apply reads_in in K as (q & J & E & K). rewrite (Same q p J I E) in K. inversion K. contradiction.
    + assert (B : forall n, (exists p, In p (h_inputs h) /\ fd_name (ps_field p) = n /\ java_body p) <-> jc_body c = Some n).
      { intros n. transitivity (listens r n AtBody).
        - rewrite reads_in. split; intros (p & I & N & K); exists p; (split; [exact I|split; [exact N|]]); [apply pl_body; exact K|]. inversion K as [| | |K']. exact K'.
        - rewrite A, S. split; [intros [(p & _ & _ & D)|[_ D]]; [|exact D]|intros D; right; auto]. destruct D as [[_ D]|[(_ & _ & D)|[_ D]]]; discriminate D. }
      split.
      * intros M. assert (Z : exists n, jc_body c = Some n). { destruct Se as [(_ & [(p & _ & E)|(_ & E)])|(M' & _)]; [eauto|eauto|]. exfalso. clear -M M'. cbn in M, M'. destruct M as [M|[M|[]]], M' as [M'|[M'|[]]]; congruence. }
        destruct Z as [n Z]. destruct (proj2 (B n) Z) as (p & I & N & J). exists p. split; [exact I|]. split; [exact J|]. intros q Iq Jq.
        assert (Y : jc_body c = Some (fd_name (ps_field q))) by (apply B; exists q; auto). congruence.
      * intros M p I J. assert (Y : jc_body c = Some (fd_name (ps_field p))) by (apply B; exists p; auto). destruct Se as [(M' & _)|(_ & E)]; [contradiction|congruence].
  - intros [O [B1 B2]] n pl. rewrite reads_in, S. split.
    + intros (p & I & N & P). destruct (O p I) as [O1 O2]. destruct P as [Q|Q H|Q H P|J].
      * left. exists p. split; [exact I|]. split; [exact N|]. right. left. destruct (ps_path p) eqn:P; [|auto]. destruct (O1 eq_refl). contradiction.
      * left. exists p. tauto.
      * left. exists p. tauto.
      * right. split; [reflexivity|]. destruct Se as [(M & [(q & (Jq & a & b & E & F) & K)|(F & _)])|(M & _)].
        -- rewrite K. f_equal. destruct (B1 M) as (p0 & I0 & J0 & U). rewrite <- N. rewrite (U q), (U p); [reflexivity|exact I|exact J| |exact Jq]. rewrite E. apply in_elt.
        -- destruct (F p I J).
        -- destruct (B2) with (p := p); [|exact I|exact J]. clear -M. cbn. intros [M'|[M'|[]]]; destruct M as [M|[M|[]]]; congruence.
    + intros [(p & I & N & D)|(-> & D)].
      * exists p. split; [exact I|]. split; [exact N|]. destruct (O p I) as [O1 O2]. destruct D as [(P & ->)|[(P & Q & ->)|(H & ->)]].
        -- destruct (O1 P). apply pl_path; assumption.
        -- apply pl_query. exact Q.
        -- apply pl_header; [|exact H]. destruct (string_dec (ps_query p) "") as [Q|Q]; [exact Q|]. rewrite (O2 Q) in H. contradiction.
      * destruct Se as [(M & [(q & (Jq & a & b & E & F) & K)|(F & K)])|(M & K)]; [| |congruence].
        -- exists q. split; [rewrite E; apply in_elt|]. split; [congruence|apply pl_body; exact Jq].
        -- destruct (B1 M) as (p & I & J & _). destruct (F p I J).
Qed.

Theorem answers_agree : (forall n pl, answers r n pl <-> awaits c n pl) <-> answer_plain by_name h.
Proof.
  destruct R as (x & X & _ & _ & _ & _ & _ & _ & Hr & _ & En & _). destruct C as (x' & X' & _ & _ & _ & _ & _ & _ & _ & _ & An & _). rewrite X in X'. injection X' as <-.
  assert (HA : forall n k, In (k, n) (jr_headers r) <-> exists e hs t, jc_answer c = Some (e, hs) /\ In (n, k, t) hs).
  { intros n k. rewrite Hr, header_answers. split.
    - intros (p & I & N & K & Z). destruct An as [(O & _)|(_ & e & hs & -> & _ & F)]; [rewrite O in I; destruct I|].
      assert (Ip : In p (header_outputs (xp_outputs x))) by (unfold header_outputs; apply filter_In; split; [exact I|]; destruct (string_dec (ps_header p) ""); [congruence|reflexivity]).
      destruct (forall2_mem _ _ _ F p Ip) as ([[n' k'] t] & J & E & _). exists e, hs, t. split; [reflexivity|]. cbn in E. injection E as -> ->. rewrite <- N, <- K. exact J.
    - intros (e & hs & t & A & J). destruct An as [(_ & A')|(_ & e' & hs' & A' & _ & F)]; [congruence|]. rewrite A' in A. injection A as -> ->.
      assert (Z : exists p, In p (header_outputs (xp_outputs x)) /\ (n, k) = (fd_name (ps_field p), ps_header p)).
      { clear -F J. induction F as [|p y l ys [U _] F IH]; [destruct J|]. destruct J as [-> |J]; [exists p; split; [left; reflexivity|exact U]|]. destruct (IH J) as (q & I & E). exists q. split; [right; exact I|exact E]. }
      destruct Z as (p & I & E). unfold header_outputs in I. apply filter_In in I as [I K]. exists p. injection E as -> ->. split; [exact I|]. split; [reflexivity|]. split; [reflexivity|]. destruct (string_dec (ps_header p) ""); [discriminate|assumption]. }
  assert (Plain : forall n, (exists b, jr_entity r = Some (n, b)) <-> exists p t, first plain_output (xp_outputs x) p /\ by_name (param_type p) true t /\ fd_name (ps_field p) = n /\ ~ In n [""; "void"]).
  { intros n. destruct En as [(p & t & F & T & E)|(F & E)]; rewrite E.
    - cbv zeta. destruct (in_dec string_dec (fd_name (ps_field p)) [""; "void"]) as [D|D].
      + split; [intros [b K]; discriminate|]. intros (q & t' & Fq & _ & N & K). rewrite (first_fun _ _ _ _ _ Fq F) in N. rewrite <- N in K. contradiction.
      + split; [intros [b K]; assert (n = fd_name (ps_field p)) as -> by congruence; exists p, t; auto|]. intros (q & t' & Fq & _ & N & _). rewrite (first_fun _ _ _ _ _ Fq F) in N. rewrite N. eexists. reflexivity.
    - split; [intros [b K]; discriminate|]. intros (q & t' & (Pq & a & b & E' & _) & _). destruct (F q); [rewrite E'; apply in_elt|exact Pq]. }
  assert (Await : forall n, (exists e hs t, jc_answer c = Some (e, hs) /\ e = Some (n, t)) <-> exists p t, first plain_output (xp_outputs x) p /\ by_name (param_type p) true t /\ fd_name (ps_field p) = n /\ jtype_text t <> "void").
  { intros n. destruct An as [(O & A)|(O & e & hs & A & E & _)]; rewrite A.
    - split; [intros (e & hs & t & K & _); discriminate|]. intros (q & t & (_ & a & b & E & _) & _). rewrite O in E. destruct a; discriminate.
    - destruct E as [(p & t & F & T & E)|(F & E)].
      + rewrite E. destruct (string_dec (jtype_text t) "void") as [V|V].
        * split; [intros (e' & hs' & t' & K & K'); congruence|]. intros (q & t' & Fq & T' & N & W). rewrite (first_fun _ _ _ _ _ Fq F) in T'. rewrite (one _ _ _ _ T' T) in W. contradiction.
        * split; [intros (e' & hs' & t' & K & K'); exists p, t; assert (Some (fd_name (ps_field p), t) = Some (n, t')) as G by congruence; injection G as G _; auto|].
          intros (q & t' & Fq & T' & N & W). rewrite (first_fun _ _ _ _ _ Fq F) in N. eexists _, _, _. split; [reflexivity|]. rewrite N. reflexivity.
      + rewrite E. split; [intros (e' & hs' & t' & K & K'); congruence|]. intros (q & t' & (Pq & a & b & E' & _) & _). destruct (F q); [rewrite E'; apply in_elt|exact Pq]. }
  split.
  - intros A x' p t X' F T. rewrite X in X'. injection X' as <-.
    assert (B : (exists b, jr_entity r = Some (fd_name (ps_field p), b)) <-> exists e hs t, jc_answer c = Some (e, hs) /\ e = Some (fd_name (ps_field p), t)).
    { specialize (A (fd_name (ps_field p)) AtBody). split.
      - intros B. destruct (proj1 A (or_intror (conj eq_refl B))) as (e & hs & K & [(k & t' & D & _)|(_ & t' & D)]); [discriminate D|]. exists e, hs, t'. auto.
      - intros (e & hs & t' & K & D). destruct (proj2 A) as [(k & D' & _)|(_ & B)]; [exists e, hs; split; [exact K|]; right; eauto|discriminate D'|exact B]. }
    rewrite Plain, Await in B. split.
    + intros N. destruct (string_dec (jtype_text t) "void") as [V|V]; [exact V|exfalso]. destruct (proj2 B (ex_intro _ p (ex_intro _ t (conj F (conj T (conj eq_refl V)))))) as (_ & _ & _ & _ & _ & K). contradiction.
    + intros V. destruct (in_dec string_dec (fd_name (ps_field p)) [""; "void"]) as [N|N]; [exact N|exfalso]. destruct (proj1 B (ex_intro _ p (ex_intro _ t (conj F (conj T (conj eq_refl N)))))) as (q & t' & Fq & T' & _ & K).
      rewrite (first_fun _ _ _ _ _ Fq F) in T'. rewrite (one _ _ _ _ T' T) in K. contradiction.
  - intros P n pl. unfold answers, awaits. split.
    + intros [(k & -> & I)|(-> & B)].
      * apply HA in I as (e & hs & t & A & J). exists e, hs. split; [exact A|]. left. eauto.
      * apply Plain in B as (p & t & F & T & N & K). assert (V : jtype_text t <> "void") by (intros V; apply K; rewrite <- N; apply (P x p t X F T); exact V).
        destruct (proj2 (Await n) (ex_intro _ p (ex_intro _ t (conj F (conj T (conj N V)))))) as (e & hs & t' & A & D). exists e, hs. split; [exact A|]. right. eauto.
    + intros (e & hs & A & [(k & t & -> & J)|(-> & t & D)]).
      * left. exists k. split; [reflexivity|]. apply HA. eauto.
      * right. split; [reflexivity|]. destruct (proj1 (Await n)) as (p & t' & F & T & N & V); [exists e, hs, t; auto|]. apply Plain. exists p, t'. split; [exact F|]. split; [exact T|]. split; [exact N|]. intros K. apply V. apply (P x p t' X F T). rewrite N. exact K.
Qed.
Theorem errors_agree : map (fun e => (snd e, jtype_text (fst e))) (jr_errors r) = jc_errors c <-> forall e t, In e (h_exceptions h) -> by_name (xc_type e) true t -> jtype_text t = xc_type e.
Proof.
  destruct R as (x & _ & _ & _ & _ & _ & _ & _ & _ & _ & _ & F). destruct C as (x' & _ & _ & _ & _ & _ & _ & _ & _ & _ & _ & _ & E). rewrite E. clear -F one.
  induction F as [|e k l ks [T S] F IH]; [split; [intros _ e t []|reflexivity]|]. cbn [map]. split.
  - intros K. injection K as _ K1 K2. intros e' t [<- |I] U; [rewrite (one _ _ _ _ U T); exact K1|]. exact (proj1 IH K2 e' t I U).
  - intros K. rewrite S, (K e (fst k) (or_introl eq_refl) T). f_equal. apply IH. intros e' t I. apply (K e' t (or_intror I)).
Qed.
Theorem same_action : jc_method c = jr_method r /\ jc_path c = jr_path r /\ jc_status c = jr_status r /\ map fst (jc_errors c) = map snd (jr_errors r).
Proof.
  destruct R as (x & X & _ & M & P & _ & S & _ & _ & _ & _ & F). destruct C as (x' & X' & _ & M' & P' & _ & _ & _ & _ & S' & _ & _ & E). rewrite X in X'. injection X' as <-.
  split; [congruence|]. split; [exact (path_part_fun _ _ _ P' P)|]. split; [congruence|]. rewrite E, map_map. cbn [fst]. clear -F. induction F as [|e k l ks [_ S] F IH]; [reflexivity|]. cbn [map]. congruence.
Qed.
End AGREE.
