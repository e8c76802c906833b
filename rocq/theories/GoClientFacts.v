(** The generated Go file of a client: text, imports and errors. *)
From Verif Require Import GoStr Outcome Value Schema Scalars Model Misc Time Generator Golang GoModel GoServer GoClient SpecTime SpecMisc SpecModel SpecPV
  SpecTrace SpecGo SpecGoServer SpecGoClient ModelFacts PVFacts TraceFacts TraceText GoModelFacts GoText TraceFill GoServerFacts.

Section CLIENT.
Context (sch : schema) (m : model) (Hm : new_model sch = Ok m) (rt : bool).

Lemma based_base n : based sch n (base_type m n).
Proof.
  unfold based, base_type. destruct (find_type m n) as [td|] eqn:F.
  - left. exists (td_spec td). split; [apply (find_def sch m Hm); exact F|reflexivity].
  - right. split; [|reflexivity]. intros (ts & D). exact (proj1 (find_none sch m Hm n) F ts D).
Qed.
Lemma forms_spec n : plain_form (base_type m n) (not_set m n) (type_format m n).
Proof.
  unfold not_set, type_format. cbv zeta. destruct (base_type m n =?s "String") eqn:E1; [apply seqb_eq in E1; apply pf_string; exact E1|].
  destruct (str_mem (base_type m n) ["Int8"; "Int16"; "Int32"; "Int64"]) eqn:E2; [apply str_mem_In in E2; apply pf_int; exact E2|].
  destruct (str_mem (base_type m n) ["Float32"; "Float64"; "Decimal"]) eqn:E3; [apply str_mem_In in E3; apply pf_float; exact E3|].
  destruct (base_type m n =?s "Bool") eqn:E4; [apply seqb_eq in E4; apply pf_bool; exact E4|]. apply pf_other.
  apply seqb_neq in E1, E4. assert (N2 : ~ In (base_type m n) ints) by (intros I; apply str_mem_In in I; unfold ints in I; congruence).
  assert (N3 : ~ In (base_type m n) floats) by (intros I; apply str_mem_In in I; unfold floats in I; congruence).
  intros I. rewrite !in_app_iff in I. destruct I as [I|[I|I]]; [|exact (N2 I)|exact (N3 I)]. cbn in I. intuition congruence.
Qed.
Lemma queries_spec ins : exists qs, queries_shown sch ins qs /\ String.concat "" (map (query_param m) ins) = each cquery_text qs.
Proof.
  rewrite concat_each. induction ins as [|p ins (qs & S & E)]; [exists []; split; [constructor|reflexivity]|]. cbn [each fold_right]. unfold each in E at 1. rewrite E.
  unfold query_param at 1. cbv zeta. destruct (ps_query p =?s "") eqn:Q.
  - apply seqb_eq in Q. exists qs. split; [apply cq_skip; assumption|reflexivity].
  - apply seqb_neq in Q. eexists. split.
    + eapply cq_put; [exact Q|apply capitalize_large|apply based_base|apply forms_spec|exact S].
    + cbn [each fold_right]. unfold each. unfold cquery_text. cbn [cq_field cq_zero cq_key cq_verb]. rewrite <- ?tabbed_1, <- ?tabbed_2; unfold line. rewrite !append_assoc. reflexivity.
Qed.
Lemma is_body_iff p : is_body p = true <-> in_body p.
Proof.
  unfold is_body, in_body. rewrite !Bool.andb_true_iff, !seqb_eq. destruct (ps_path p); cbn; intuition congruence.
Qed.
Lemma find_split {A} (f : A -> bool) l x : find f l = Some x -> exists a b, l = a ++ x :: b /\ (forall y, In y a -> f y = false) /\ f x = true.
Proof.
  induction l as [|y l IH]; [discriminate|]. cbn [find]. destruct (f y) eqn:E.
  - intros H. assert (y = x) as -> by congruence. exists [], l. split; [reflexivity|]. split; [intros z []|exact E].
  - intros H. destruct (IH H) as (a & b & -> & N & F). exists (y :: a), b. split; [reflexivity|]. split; [|exact F]. intros z [<- |I]; auto.
Qed.
Lemma find_none_iff {A} (f : A -> bool) l : find f l = None -> forall y, In y l -> f y = false.
Proof. intros F y I. exact (List.find_none f l F y I). Qed.
Definition adds2 (st st' : gost) (P Q : Prop) : Prop :=
  (forall p, In p (go_imports st') <-> In p (go_imports st) \/ (p = sadl_package /\ P) \/ (p = bytes_package /\ Q)) /\ (NoDup (go_imports st) -> NoDup (go_imports st')).
Lemma body_spec h st s st' : body_reader h st = (s, st') -> exists b, sent_body h b
  /\ s = match b with Some f => "bytes.NewReader([]byte(Json(req." +++ f +++ ")))" | None => "nil" end /\ adds2 st st' False (sends_body h).
Proof.
  unfold body_reader, entity_method. destruct (str_mem (h_method h) ["PUT"; "POST"; "PATCH"]) eqn:E.
  - apply str_mem_In in E. destruct (find is_body (h_inputs h)) as [p|] eqn:F.
    + apply find_split in F as (a & r & EQ & N & B). intros H. exists (Some (capitalize (fd_name (ps_field p)))). split; [|split; [congruence|]].
      * split; [exact E|]. exists a, p, r. split; [exact EQ|]. split; [intros y I Y; apply is_body_iff in Y; rewrite (N y I) in Y; discriminate|].
        split; [apply is_body_iff; exact B|apply capitalize_large].
      * assert (st' = add_import "bytes" st) as -> by congruence. split; [|apply adjoin_nodup]. intros q. cbn [add_import go_imports]. rewrite adjoin_in.
        assert (X : sends_body h) by (split; [exact E|]; exists p; split; [rewrite EQ; apply in_elt|apply is_body_iff; exact B]). unfold bytes_package. tauto.
    + assert (N := find_none_iff _ _ F). assert (NB : none in_body (h_inputs h)) by (intros y I Y; apply is_body_iff in Y; rewrite (N y I) in Y; discriminate).
      intros H. exists None. split; [intros _; exact NB|]. split; [congruence|]. assert (st' = st) as -> by congruence. split; [|auto]. intros q.
      assert (X : ~ sends_body h) by (intros (_ & p & I & B); exact (NB p I B)). tauto.
  - assert (NE : ~ with_entity (h_method h)) by (intros I; apply str_mem_In in I; congruence). intros H. exists None. split; [intros X; contradiction|]. split; [congruence|].
    assert (st' = st) as -> by congruence. split; [|auto]. intros q. assert (X : ~ sends_body h) by (intros (Y & _); contradiction). tauto.
Qed.
Lemma entity_line_text h : content_type_line h +++ nl = entity_line (h_method h).
Proof.
  unfold content_type_line, entity_method, entity_line. destruct (in_dec string_dec (h_method h) ["PUT"; "POST"; "PATCH"]) as [I|N].
  - rewrite (proj2 (str_mem_In _ _) I). reflexivity.
  - destruct (str_mem (h_method h) _) eqn:E; [apply str_mem_In in E; contradiction|reflexivity].
Qed.
Lemma reading_text v : read_entity v = reading v.
Proof. unfold read_entity, reading, giving_up. rewrite <- ?tabbed_2, <- ?tabbed_3. rewrite !append_assoc. reflexivity. Qed.
Lemma output_spec p st s st' : client_output m rt p st = Ok (s, st') ->
  exists o, output_shown sch rt p o /\ s = coutput_text o /\ adds st st' (sadl_use sch rt (ts_type (fd_spec (ps_field p)))).
Proof.
  unfold client_output. intros H. apply rbind_Ok in H as ([t st1] & T & H). cbv zeta in H. apply (server_type_spec sch m Hm) in T as [G A].
  rewrite reading_text in H. destruct (ps_header p =?s "") eqn:E.
  - apply seqb_eq in E. assert (st1 = st') by congruence. subst st1. exists (OutBody (capitalize (fd_name (ps_field p))) t). split; [apply os_body; auto using capitalize_large|].
    split; [|exact A]. cbn [coutput_text]. remember (reading "entity") as z. apply (f_equal (fun r => match r with Ok (a, _) => a | _ => "" end)) in H. cbv beta iota in H. subst s.
    rewrite <- ?tabbed_2. rewrite !append_assoc. reflexivity.
  - apply seqb_neq in E. assert (st1 = st') by congruence. subst st1. exists (OutHeader (capitalize (fd_name (ps_field p))) (quote_chars (ps_header p)) (t =?s "*Timestamp")).
    split; [eapply os_header; [exact E|apply capitalize_large|apply quote_literal|exact G|apply seqb_eq]|].
    split; [|exact A]. cbn [coutput_text]. rewrite <- quote_text. apply (f_equal (fun r => match r with Ok (a, _) => a | _ => "" end)) in H. cbv beta iota in H. subst s.
    rewrite <- ?tabbed_2. destruct (t =?s "*Timestamp"); rewrite !append_assoc; reflexivity.
Qed.
Lemma client_exception_spec e st s st' : client_exception m rt e st = Ok (s, st') -> exists ts, exception_shown_ sch rt e ts
  /\ s = tabbed 1 ("case " +++ snd ts +++ ":") +++ tabbed 2 ("var errEntity " +++ fst ts) +++ reading "errEntity" +++ tabbed 2 "return nil, errEntity"
  /\ adds st st' (sadl_use sch rt (xc_type e)).
Proof.
  unfold client_exception. intros H. apply rbind_Ok in H as ([t st1] & H & E). apply (server_type_spec sch m Hm) in H as [G A]. exists (t, fmt_d (xc_status e)).
  assert (st1 = st') by congruence. subst st1. split; [split; [exact G|apply fmt_numeral]|]. split; [|exact A]. cbn [fst snd]. rewrite reading_text in E.
  remember (reading "errEntity") as z. apply (f_equal (fun r => match r with Ok (a, _) => a | _ => "" end)) in E. cbv beta iota in E. subst s.
  rewrite <- ?tabbed_1, <- ?tabbed_2. rewrite !append_assoc. reflexivity.
Qed.
Notation client_use := (client_use sch rt).
Lemma adds_12 a b P : adds a b P -> adds2 a b P False.
Proof. intros [A B]. split; [|exact B]. intros p. rewrite A. tauto. Qed.
Lemma adds2_trans a b c P Q P' Q' : adds2 a b P Q -> adds2 b c P' Q' -> adds2 a c (P \/ P') (Q \/ Q').
Proof. intros [A A'] [B B']. split; [|auto]. intros p. rewrite B, A. tauto. Qed.
Lemma adds2_ext a b P Q P' Q' : adds2 a b P Q -> (P <-> P') -> (Q <-> Q') -> adds2 a b P' Q'.
Proof. intros [A A'] E F. split; [|exact A']. intros p. rewrite A. tauto. Qed.
Lemma adds2_refl st (P Q : Prop) : ~ P -> ~ Q -> adds2 st st P Q.
Proof. intros A B. split; [|auto]. intros p. tauto. Qed.
Lemma emit_all_spec2 {A B} (f : A -> gost -> result unit (string * gost)) (R : A -> B -> Prop) (txt : B -> string) (P Q : A -> Prop) l :
  (forall x st s st', In x l -> f x st = Ok (s, st') -> exists y, R x y /\ s = txt y /\ adds2 st st' (P x) (Q x)) ->
  forall st s st', emit_all f l st = Ok (s, st') -> exists ys, Forall2 R l ys /\ s = each txt ys /\ adds2 st st' (exists x, In x l /\ P x) (exists x, In x l /\ Q x).
Proof.
  induction l as [|x l IH]; intros H st s st' E; cbn [emit_all] in E.
  - assert (s = "" /\ st' = st) as [-> ->] by (split; congruence). exists []. split; [constructor|]. split; [reflexivity|]. apply adds2_refl; intros (x & [] & _).
  - apply rbind_Ok in E as ([s1 st1] & E1 & E). apply rbind_Ok in E as ([s2 st2] & E2 & E). assert (s = s1 +++ s2 /\ st' = st2) as [-> ->] by (split; congruence).
    apply H in E1 as (y & R1 & -> & A1); [|left; reflexivity]. apply IH in E2 as (ys & R2 & -> & A2); [|intros z st0 s0 st0' I; apply H; right; exact I].
    exists (y :: ys). split; [constructor; assumption|]. split; [reflexivity|].
    eapply adds2_ext; [eapply adds2_trans; [exact A1|exact A2]| |]; (split; [intros [W|(z & I & W)]; [exists x; cbn; auto|exists z; cbn; auto]|intros (z & [<- |I] & W); eauto]).
Qed.
Lemma method_spec client h st s st' : emit_method m rt client h st = Ok (s, st') ->
  exists c, method_shown sch rt h c /\ s = cmethod_text client c /\ adds2 st st' (client_use h) (sends_body h).
Proof.
  unfold emit_method. cbv zeta. destruct (body_reader h st) as [body st1] eqn:B. apply body_spec in B as (b & SB & EB & A1).
  intros H. apply rbind_Ok in H as ([res st2] & R & H). apply rbind_Ok in H as ([exs st3] & X & H). unfold expected_results in R.
  destruct (h_expected h) as [x|] eqn:HX; [|discriminate]. apply rbind_Ok in R as ([outs st2'] & O & R). assert (st2' = st2) by congruence. subst st2'.
  apply (emit_all_spec _ (output_shown sch rt) coutput_text (fun p => sadl_use sch rt (ts_type (fd_spec (ps_field p))))) in O as (os & FO & EO & A2); [|intros p a c d _; apply output_spec].
  apply (emit_all_spec _ (exception_shown_ sch rt) (fun e => tabbed 1 ("case " +++ snd e +++ ":") +++ tabbed 2 ("var errEntity " +++ fst e) +++ reading "errEntity" +++ tabbed 2 "return nil, errEntity")
    (fun e => sadl_use sch rt (xc_type e))) in X as (es & FX & EX & A3); [|intros p a c d _; apply client_exception_spec].
  destruct (queries_spec (h_inputs h)) as (qs & SQ & EQ). assert (st3 = st') by congruence. subst st3.
  exists (mkCM (capitalize (h_name h)) (h_method h) (route_path h) qs b (fmt_d (xp_status x)) os es). split; [|split].
  - exists x. cbn. split; [exact HX|]. split; [apply capitalize_large|]. split; [reflexivity|]. split; [apply route_part|]. split; [exact SQ|]. split; [exact SB|].
    split; [apply fmt_numeral|]. split; [exact FO|exact FX].
  - unfold cmethod_text. cbn [cm_name cm_method cm_route cm_query cm_body cm_status cm_outputs cm_exceptions]. rewrite EQ, EX, EB in H. rewrite EO in R.
    apply (f_equal (fun r => match r with Ok (a, _) => a | _ => "" end)) in R. cbv beta iota in R. subst res.
    apply (f_equal (fun r => match r with Ok (a, _) => a | _ => "" end)) in H. cbv beta iota in H. subst s. rewrite <- entity_line_text.
    remember (each cquery_text qs) as z1. remember (each coutput_text os) as z2. remember (each _ es) as z3.
    remember (match b with Some f => _ | None => _ end) as z4. remember (fmt_d (xp_status x)) as z5. remember (capitalize (h_name h)) as z6. remember (route_path h) as z7.
    remember (content_type_line h) as z8. clear. unfold giving_up. rewrite <- ?tabbed_1, <- ?tabbed_2; unfold line. rewrite !append_assoc. reflexivity.
  - eapply adds2_ext; [eapply adds2_trans; [exact A1|eapply adds2_trans; [apply adds_12; exact A2|apply adds_12; exact A3]]| |]; [|tauto].
    unfold SpecGoClient.client_use, outputs_of. rewrite HX. tauto.
Qed.
Lemma client_spec name pkg s : create_client m rt name pkg = Ok s -> exists imports large cs,
  s = client_text pkg imports (large +++ "Client") cs /\ large_first name large /\ Forall2 (method_shown sch rt) (sc_http sch) cs
  /\ NoDup imports /\ forall p, In p imports <-> In p client_imports \/ (p = sadl_package /\ exists h, In h (sc_http sch) /\ client_use h)
       \/ (p = bytes_package /\ exists h, In h (sc_http sch) /\ sends_body h).
Proof.
  unfold create_client. intros H. apply rbind_Ok in H as ([body st] & H & E). change (fold_left adjoin client_imports []) with client_imports in H.
  assert (B : emit_client m rt name (mkGo client_imports false false) = Ok (body, st)) by (destruct (emit_client _ _ _ _); cbn in H; congruence).
  clear H. unfold emit_client in B. cbv zeta in B. rewrite (m_is sch m Hm) in B. apply rbind_Ok in B as ([ms st1] & H & B).
  apply (emit_all_spec2 _ (method_shown sch rt) (cmethod_text (capitalize name +++ "Client")) client_use sends_body) in H as (cs & F & -> & [A A']).
  2:{ intros h a b c _ X. apply method_spec in X. exact X. }
  assert (st1 = st) by congruence. subst st1. exists (go_imports st), (capitalize name), cs. split; [|split; [|split; [|split]]].
  - unfold client_text. rewrite (head_text) in E. remember (each (cmethod_text (capitalize name +++ "Client")) cs) as z1.
    remember (imports_text (go_imports st)) as z3. apply (f_equal (fun r => match r with Ok (a, _) => a | _ => "" end)) in B. cbv beta iota in B. subst body.
    apply (f_equal (fun r => match r with Ok a => a | _ => "" end)) in E. cbv beta iota in E. subst s. clear.
    rewrite <- ?tabbed_1, <- ?tabbed_2; unfold line. rewrite !append_assoc. reflexivity.
  - apply capitalize_large.
  - exact F.
  - apply A'. cbn [go_imports]. repeat (constructor; [cbn; intuition discriminate|]). constructor.
  - exact A.
Qed.
Definition bad_output (p : paramspec) : Prop :=
  exists ts, defines sch (ts_type (fd_spec (ps_field p))) ts /\ forall t, ~ go_use sch rt ts (ts_type (fd_spec (ps_field p))) t.
Definition bad_method (h : httpdef) : Prop :=
  h_expected h = None \/ (exists p, In p (outputs_of h) /\ bad_output p) \/ (exists e, In e (h_exceptions h) /\ bad_exception sch rt e).
Lemma output_total p st : (client_output m rt p st = Panic /\ bad_output p) \/ (~ bad_output p /\ exists s st', client_output m rt p st = Ok (s, st')).
Proof.
  unfold client_output. destruct (server_type_total sch m Hm rt (ts_type (fd_spec (ps_field p))) st) as [[E N]|(N & s & st' & E)]; rewrite E; cbn [rbind]; [left; auto|right].
  split; [|cbv zeta; destruct (ps_header p =?s ""); eauto]. intros (ts & D & X). destruct (N ts D) as [t U]. exact (X t U).
Qed.
Lemma client_exception_total e st : (client_exception m rt e st = Panic /\ bad_exception sch rt e) \/ (~ bad_exception sch rt e /\ exists s st', client_exception m rt e st = Ok (s, st')).
Proof.
  unfold client_exception. destruct (server_type_total sch m Hm rt (xc_type e) st) as [[E N]|(N & s & st' & E)]; rewrite E; cbn [rbind]; [left; auto|right].
  split; [|eauto]. intros (ts & D & X). destruct (N ts D) as [t U]. exact (X t U).
Qed.
Lemma method_total client h st : (emit_method m rt client h st = Panic /\ bad_method h) \/ (~ bad_method h /\ exists s st', emit_method m rt client h st = Ok (s, st')).
Proof.
  unfold emit_method, bad_method, outputs_of, expected_results. cbv zeta. destruct (body_reader h st) as [body st1]. destruct (h_expected h) as [x|]; [|left; cbn [rbind]; auto].
  destruct (emit_all_panic (client_output m rt) bad_output (xp_outputs x) (fun p a _ => output_total p a) st1) as [[E X]|(X & s1 & st2 & E)]; rewrite E; cbn [rbind]; [left; auto|].
  destruct (emit_all_panic (client_exception m rt) (bad_exception sch rt) (h_exceptions h) (fun p a _ => client_exception_total p a) st2) as [[F Y]|(Y & s3 & st3 & F)]; rewrite F; cbn [rbind]; [left; auto|].
  right. split; [|eauto]. intros [Z|[(p & I & Z)|(e & I & Z)]]; [discriminate|exact (X p I Z)|exact (Y e I Z)].
Qed.
Lemma client_fails_iff : client_fails sch <-> exists h, In h (sc_http sch) /\ bad_method h.
Proof.
  unfold bad_method. split.
  - intros [h I N|h x p I N J (ts & D & NT)|h e I J (ts & D & NT)]; exists h; (split; [exact I|]); [auto|right; left|right; right].
    + exists p. unfold outputs_of. rewrite N. split; [exact J|]. exists ts. split; [exact D|]. intros t. apply NT.
    + exists e. split; [exact J|]. exists ts. split; [exact D|]. intros t. apply NT.
  - intros (h & I & [N|[(p & J & ts & D & NT)|(e & J & ts & D & NT)]]).
    + eapply cf_expected; eassumption.
    + unfold outputs_of in J. destruct (h_expected h) as [x|] eqn:E; [|destruct J]. eapply cf_output; [exact I|exact E|exact J|]. exists ts. split; [exact D|]. apply (use_any_runtime sch rt). exact NT.
    + eapply cf_exception; [exact I|exact J|]. exists ts. split; [exact D|]. apply (use_any_runtime sch rt). exact NT.
Qed.
Lemma client_total name pkg : (create_client m rt name pkg = Err tt /\ client_fails sch) \/ (~ client_fails sch /\ exists s, create_client m rt name pkg = Ok s).
Proof.
  rewrite client_fails_iff. unfold create_client, emit_client. cbv zeta. rewrite (m_is sch m Hm).
  destruct (emit_all_panic (emit_method m rt (capitalize name +++ "Client")) bad_method (sc_http sch)
    (fun x a _ => method_total _ x a) (mkGo (fold_left adjoin client_imports []) false false)) as [[E X]|(X & s1 & st1 & E)]; rewrite E; cbn [rbind recovered].
  - left. split; [reflexivity|exact X].
  - right. split; [|eauto]. intros (h & I & B). exact (X h I B).
Qed.
End CLIENT.
