From Verif Require Import GoStr Outcome Value Schema Misc Model Time HttpTrace Swagger Trace
  SpecTime SpecMisc SpecPV SpecGen SpecTrace TimeFacts MiscFacts ModelFacts PVFacts GenFacts TraceFacts.
From Coq Require Import Permutation.

(** ** Replacing *)
Lemma replaced_all old new n : old <> "" -> forall s, String.length s < n -> replaced old new s (replace_all n old new s).
Proof.
  intros Ne. induction n as [|n IH]; intros s L; [lia|]. cbn [replace_all]. destruct (has_prefix old s) eqn:P.
  - apply has_prefix_spec in P as [r ->]. rewrite sdrop_append.
    apply (rp_first old new "" r); [intros a' b' _; cbn; lia|]. apply IH. rewrite append_length in L.
    destruct old; [now destruct Ne|cbn in L; lia].
  - assert (Np : forall r, s <> old +++ r).
    { intros r ->. assert (has_prefix old (old +++ r) = true) by (apply has_prefix_spec; now exists r). congruence. }
    destruct s as [|c s].
    + apply rp_none. intros (a & b & E). destruct a; [|discriminate]. exact (Np b E).
    + cbn in L. assert (R : replaced old new s (replace_all n old new s)) by (apply IH; lia). revert R.
      generalize (replace_all n old new s) as t. clear IH P L. revert Np. intros Np t R. revert Np. destruct R as [s N|a r r' F R]; intros Np.
      * apply rp_none. intros (a & b & E). destruct a as [|x a]; [exact (Np b E)|]. injection E as _ E. apply N. now exists a, b.
      * change (String c (a +++ old +++ r)) with (String c a +++ old +++ r). change (String c (a +++ new +++ r')) with (String c a +++ new +++ r').
        apply rp_first; [|exact R]. intros a' b' E. destruct a' as [|x a']; [destruct (Np b'); exact E|].
        injection E as _ E. cbn. apply le_n_S. now apply (F a' b').
Qed.

Lemma target_some uri : exists p l, target uri p l.
Proof.
  destruct (cut "?" uri) as [[p q]|] eqn:C.
  - apply cut_Some in C as [E N]. exists p, (split "&" q). subst uri.
    replace (p +++ String "?" q) with (p +++ "?" +++ join "&" (split "&" q)) by (rewrite join_split; reflexivity).
    pose proof (split_nonempty "&" q). pose proof (fun x => split_no_sep "&" q x). destruct (split "&" q) as [|i l]; [contradiction|].
    apply tg_query; [now apply no_char_smem|]. intros x Hx. apply no_char_smem. now apply H0.
  - apply cut_None in C. exists uri, []. apply tg_plain. now apply no_char_smem.
Qed.
Lemma stripped_some uri : stripped uri (strip_missing uri).
Proof.
  destruct (target_some uri) as (p & l & T). destruct (strip_target uri p l T) as (k & W & K). exists p, l, k. auto.
Qed.

Section T.
Context (dec_text : decimal -> string) (pretty_text : value -> string) (status_text : Z -> string)
  (date : string -> string -> string).

Lemma shown_of v : shown dec_text v (string_example dec_text v).
Proof. destruct v; try (apply sh_other; intros; discriminate); constructor. Qed.
Lemma entry_of l n : entry l n (example_at l n).
Proof.
  unfold example_at. destruct (assoc n l) as [v|] eqn:A.
  - left. induction l as [|[k x] l IH]; [discriminate|]. cbn in A. destruct (n =?s k) eqn:E.
    + apply seqb_eq in E. injection A as ->. subst k. exists [], l. split; [reflexivity|intros []].
    + destruct (IH A) as (l1 & l2 & -> & N). exists ((k, x) :: l1), l2. split; [reflexivity|].
      intros [C|C]; [cbn in C; subst k; rewrite seqb_refl in E; discriminate|now apply N].
  - right. apply assoc_None in A. auto.
Qed.
Lemma in_line_iff p : ps_path p || negb (ps_query p =?s "") = true <-> in_line p.
Proof.
  unfold in_line. rewrite Bool.orb_true_iff, Bool.negb_true_iff, seqb_neq. tauto.
Qed.
Lemma body_cons (P : paramspec -> Prop) l p ps b b' :
  (~ P p -> b' = b) -> (P p -> exists v, entry l (name_of p) v /\ b' = pretty_text v) -> P p \/ ~ P p ->
  forall c, ((none P ps /\ c = b') \/ exists q v, last_that P ps q /\ entry l (name_of q) v /\ c = pretty_text v) ->
  (none P (p :: ps) /\ c = b) \/ exists q v, last_that P (p :: ps) q /\ entry l (name_of q) v /\ c = pretty_text v.
Proof.
  intros Hn Hy D c [[N ->]|(q & v & L & E & ->)].
  - destruct D as [Py|Pn].
    + right. destruct (Hy Py) as (v & E & ->). exists p, v. split; [apply last_cons; right; auto|auto].
    + left. split; [|now apply Hn]. intros x [<- |Hx]; [exact Pn|now apply N].
  - right. exists q, v. split; [apply last_cons; now left|auto].
Qed.

Lemma request_parts_spec l ins : forall path headers body,
  exists path' hs b, request_parts dec_text pretty_text l ins path headers body = (path', headers +++ header_text hs, b)
    /\ put_in dec_text l ins path path' /\ header_params dec_text in_header l ins hs
    /\ ((none body_input ins /\ b = body) \/ exists p v, last_that body_input ins p /\ entry l (name_of p) v /\ b = pretty_text v).
Proof.
  induction ins as [|p ins IH]; intros path headers body.
  - exists path, [], body. cbn. rewrite append_nil_r. split; [reflexivity|]. split; [constructor|]. split; [constructor|].
    left. split; [intros x []|reflexivity].
  - cbn [request_parts]. destruct (ps_path p || negb (ps_query p =?s "")) eqn:L.
    + apply in_line_iff in L. assert (Nh : ~ in_header p) by (intros [C _]; contradiction).
      assert (Nb : ~ body_input p) by (intros (A & B & _); destruct L; congruence).
      edestruct IH as (path' & hs & b & R & P & H & B). rewrite R. exists path', hs, b. split; [reflexivity|]. split.
      * eapply pi_in; [exact L|apply entry_of|apply shown_of| |exact P]. apply replaced_all; [discriminate|lia].
      * split; [now apply hp_skip|]. eapply body_cons; [| | |exact B]; [reflexivity|intros C; contradiction|now right].
    + assert (Nl : ~ in_line p) by (rewrite <- in_line_iff; congruence).
      destruct (negb (ps_header p =?s "")) eqn:Hd.
      * apply Bool.negb_true_iff, seqb_neq in Hd. edestruct IH as (path' & hs & b & R & P & H & B). rewrite R.
        exists path', ((ps_header p, string_example dec_text (example_at l (fd_name (ps_field p)))) :: hs), b.
        split; [cbn [header_text]; rewrite !append_assoc; reflexivity|]. split; [now apply pi_skip|]. split.
        -- eapply hp_in; [split; [exact Nl|exact Hd]|apply entry_of|apply shown_of|exact H].
        -- eapply body_cons; [| | |exact B]; [reflexivity| |right]; intros (_ & _ & C); contradiction.
      * apply Bool.negb_false_iff, seqb_eq in Hd. edestruct IH as (path' & hs & b & R & P & H & B). rewrite R.
        exists path', hs, b. split; [reflexivity|]. split; [now apply pi_skip|]. split.
        -- apply hp_skip; [|exact H]. intros [_ C]. contradiction.
        -- assert (Bp : body_input p).
           { split; [destruct (ps_path p) eqn:E; [destruct Nl; now left|reflexivity]|]. split; [|exact Hd].
             destruct (string_dec (ps_query p) "") as [E|E]; [exact E|destruct Nl; now right]. }
           eapply body_cons; [| | |exact B]; [intros C; contradiction| |now left]. intros _. eexists. split; [apply entry_of|reflexivity].
Qed.
Lemma header_text_app a b : header_text (a ++ b) = header_text a +++ header_text b.
Proof. induction a as [|[k v] a IH]; [reflexivity|]. cbn [header_text List.app]. rewrite IH, !append_assoc. reflexivity. Qed.

Lemma request_text_spec h l : exists m, request_text dec_text pretty_text h l = message_text m /\ request_shown dec_text pretty_text h l m.
Proof.
  unfold request_text. destruct (request_parts_spec l (h_inputs h) (h_path h) "" "") as (path & hs & b & R & P & H & B). rewrite R.
  exists (mkMsg (h_method h +++ " " +++ strip_missing path +++ " HTTP/1.1") (hs ++ [("Accept", "application/json")]) b). split.
  - unfold message_text. cbn [ms_start ms_headers ms_body]. rewrite header_text_app. cbn [header_text]. rewrite !append_assoc. reflexivity.
  - split; [|split]; cbn [ms_start ms_headers ms_body].
    + exists path, (strip_missing path). split; [exact P|]. split; [apply stripped_some|reflexivity].
    + exists hs. auto.
    + exact B.
Qed.

Lemma response_parts_spec l st outs : forall headers body,
  exists hs b, response_parts dec_text pretty_text l st outs headers body = (headers +++ header_text hs, b)
    /\ header_params dec_text (fun p => ps_header p <> "") l outs hs
    /\ (st = 204%Z -> b = body)
    /\ (st <> 204%Z -> (none body_output outs /\ b = body) \/ exists p v, last_that body_output outs p /\ entry l (name_of p) v /\ b = pretty_text v).
Proof.
  induction outs as [|p outs IH]; intros headers body.
  - exists [], body. cbn. rewrite append_nil_r. split; [reflexivity|]. split; [constructor|]. split; [reflexivity|].
    left. split; [intros x []|reflexivity].
  - cbn [response_parts]. destruct (negb (ps_header p =?s "")) eqn:Hd.
    + apply Bool.negb_true_iff, seqb_neq in Hd. edestruct IH as (hs & b & R & H & B & B'). rewrite R.
      exists ((ps_header p, string_example dec_text (example_at l (fd_name (ps_field p)))) :: hs), b.
      split; [cbn [header_text]; rewrite !append_assoc; reflexivity|]. split; [|split; [exact B|]].
      * eapply hp_in; [exact Hd|apply entry_of|apply shown_of|exact H].
      * intros Ns. eapply body_cons; [| | |exact (B' Ns)]; [reflexivity| |right]; intros C; contradiction.
    + apply Bool.negb_false_iff, seqb_eq in Hd. edestruct IH as (hs & b & R & H & B & B'). rewrite R.
      exists hs, b. split; [reflexivity|]. split; [apply hp_skip; [intros C; contradiction|exact H]|]. split.
      * intros E. rewrite (B E), E. reflexivity.
      * intros Ns. eapply body_cons; [| | |exact (B' Ns)]; [intros C; contradiction| |now left].
        intros _. apply Z.eqb_neq in Ns. rewrite Ns. eexists. split; [apply entry_of|reflexivity].
Qed.

(** ** Numbers *)
Lemma digits_nonempty s n : digits s n -> s <> "".
Proof. intros [c z _ _|t z c k _ _ _]; [discriminate|]. intros E. apply append_eq_nil in E as [_ E]. discriminate. Qed.
Lemma digits_zero t n : digits (String "0" t) n -> t <> "" -> digits t n.
Proof.
  remember (String "0" t) as s eqn:E. intros D. revert t E. induction D as [c z B K|s z c k D IH B K]; intros t E Ne.
  - injection E as _ <-. now destruct Ne.
  - destruct s as [|x s]; [destruct (digits_nonempty _ _ D eq_refl)|]. injection E as -> <-.
    destruct s as [|y s].
    + assert (z = 0%Z).
      { inversion D as [c' z' B' K' E1 E2|s' z' c' k' D' B' K' E1 E2]; subst.
        - change (Z.of_nat (nat_of_ascii "0")) with 48%Z in K'. lia.
        - destruct s' as [|a s']; [destruct (digits_nonempty _ _ D' eq_refl)|]. destruct s'; discriminate. }
      subst z. cbn. replace (10 * 0 + k)%Z with k by lia. now constructor.
    + apply dg_snoc; [|exact B|exact K]. apply IH; [reflexivity|discriminate].
Qed.
Lemma fmt_d_plain n r : (0 <= n)%Z -> fmt_d n = String "0" r -> r = "".
Proof.
  intros Hn E. destruct (string_dec r "") as [Er|Ne]; [exact Er|exfalso]. pose proof (fmt_d_digits n Hn) as D. rewrite E in D.
  apply digits_zero in D; [|exact Ne]. apply digits_bound in D.
  assert (P : (0 < n \/ n = 0)%Z) by lia. destruct P as [P| ->]; [|vm_compute in E; congruence].
  assert (Hk : exists k, (10 ^ Z.of_nat k <= n < 10 ^ Z.of_nat (S k))%Z).
  { destruct D as [_ D]. clear - D P. induction (String.length r) as [|w IH].
    - change (10 ^ Z.of_nat 0)%Z with 1%Z in D. lia.
    - destruct (Z_lt_le_dec n (10 ^ Z.of_nat w)); [auto|]. now exists w. }
  destruct Hk as [k Hk]. pose proof (fmt_d_length n k Hk) as Lk. rewrite E in Lk. cbn in Lk. injection Lk as Lk.
  rewrite Lk in D. lia.
Qed.
Lemma fmt_d_numeral z : numeral (fmt_d z) z.
Proof.
  destruct (Z_lt_le_dec z 0) as [L|L].
  - exists (fmt_d (- z)). rewrite Z.abs_neq by lia. split; [apply fmt_d_digits; lia|]. split; [intros r; apply fmt_d_plain; lia|].
    left. split; [exact L|]. unfold fmt_d. replace (z <? 0)%Z with true by lia. replace (- z <? 0)%Z with false by lia. reflexivity.
  - exists (fmt_d z). rewrite Z.abs_eq by lia. split; [now apply fmt_d_digits|]. split; [intros r; now apply fmt_d_plain|]. now right.
Qed.

Lemma response_text_spec h n e l x : h_expected h = Some x -> exists m,
  response_text dec_text pretty_text status_text date h n e l = Ok (message_text m)
  /\ match e with
     | None => response_shown dec_text pretty_text status_text date h n x l m
     | Some e => exception_shown pretty_text status_text date h n e l m
     end.
Proof.
  intros X. unfold response_text. rewrite X. cbv zeta. destruct e as [e|].
  - set (b := pretty_text (VMap l)). exists (mkMsg ("HTTP/1.1 " +++ fmt_d (xc_status e) +++ " " +++ status_text (xc_status e))
      (("Content-Length", fmt_d (Z.of_nat (String.length b))) :: json_type :: [("Date", date (h_name h) n)]) b). split.
    + unfold message_text. cbn [ms_start ms_headers ms_body header_text json_type]. f_equal. rewrite !append_assoc. reflexivity.
    + split; [split|]; cbn [ms_start ms_headers ms_body]; [eexists; split; [apply fmt_d_numeral|reflexivity]| |reflexivity].
      eexists. split; [apply fmt_d_numeral|reflexivity].
  - destruct (response_parts_spec l (xp_status x) (xp_outputs x) ("Content-Type: application/json; charset=utf-8" +++ nl) "") as (hs & b & R & H & B & B').
    rewrite R. exists (mkMsg ("HTTP/1.1 " +++ fmt_d (xp_status x) +++ " " +++ status_text (xp_status x))
      (("Content-Length", fmt_d (Z.of_nat (String.length b))) :: json_type :: hs ++ [("Date", date (h_name h) n)]) b). split.
    + unfold message_text. cbn [ms_start ms_headers ms_body header_text json_type]. f_equal. rewrite header_text_app. cbn [header_text].
      rewrite !append_assoc. reflexivity.
    + split; [|split]; cbn [ms_body]; [|exact B|exact B']. exists hs. split; [exact H|]. split; cbn [ms_start ms_headers ms_body].
      * eexists. split; [apply fmt_d_numeral|reflexivity].
      * eexists. split; [apply fmt_d_numeral|reflexivity].
Qed.

(** ** The trace of an action *)
Definition answerless (h : httpdef) (d : exdata) : Prop := xd_res d <> None /\ h_expected h = None.
Lemma blocks_panic h named : (exists n d, In (n, d) named /\ answerless h d) <->
  trace_blocks dec_text pretty_text status_text date h named = Panic.
Proof.
  induction named as [|[n d] named IH]; [split; [intros (n & d & [] & _)|discriminate]|].
  cbn [trace_blocks]. destruct (xd_res d) as [l|] eqn:Rd.
  - destruct (h_expected h) as [x|] eqn:X.
    + destruct (response_text_spec h n (xd_exc d) l x X) as (m & -> & _). cbn [rbind].
      split.
      * intros (n' & d' & [E|I] & A); [destruct A; congruence|]. rewrite (proj1 IH); [reflexivity|]. exists n', d'. auto.
      * destruct (trace_blocks _ _ _ _ h named) eqn:T; cbn [rbind]; try discriminate. intros _.
        destruct (proj2 IH eq_refl) as (n' & d' & I & A). exists n', d'. split; [now right|exact A].
    + split; [intros _; unfold response_text; rewrite X; reflexivity|]. intros _. exists n, d. split; [now left|]. split; congruence.
  - cbn [rbind]. split.
    + intros (n' & d' & [E|I] & A); [injection E as <- <-; destruct A; congruence|]. rewrite (proj1 IH); [reflexivity|]. exists n', d'. auto.
    + destruct (trace_blocks _ _ _ _ h named) eqn:T; cbn [rbind]; try discriminate. intros _.
      destruct (proj2 IH eq_refl) as (n' & d' & I & A). exists n', d'. split; [now right|exact A].
Qed.
Lemma blocks_total h named : trace_blocks dec_text pretty_text status_text date h named = Panic
  \/ exists s, trace_blocks dec_text pretty_text status_text date h named = Ok s.
Proof.
  induction named as [|[n d] named IH]; [right; exists ""; reflexivity|].
  cbn [trace_blocks]. destruct (xd_res d) as [l|].
  - unfold response_text. destruct (h_expected h) as [x|]; [|now left]. cbv zeta. destruct (match xd_exc d with Some _ => _ | None => _ end) as [[st hd] b].
    cbn [rbind]. destruct IH as [-> |(s & ->)]; cbn [rbind]; [now left|right; eexists; reflexivity].
  - cbn [rbind]. destruct IH as [-> |(s & ->)]; cbn [rbind]; [now left|right; eexists; reflexivity].
Qed.

Lemma ok_inj {E A} (a b : A) : @Ok E A a = Ok b -> a = b.
Proof. intros H. congruence. Qed.

(** one block *)
Definition block_shown (h : httpdef) (n : string) (d : exdata) (x : exchange) : Prop :=
  xg_name x = n /\ request_shown dec_text pretty_text h (xd_req d) (xg_request x)
  /\ match xd_res d, xg_response x with
     | None, None => True
     | Some l, Some m => exists xp, h_expected h = Some xp
         /\ match xd_exc d with
            | None => response_shown dec_text pretty_text status_text date h n xp l m
            | Some e => exception_shown pretty_text status_text date h n e l m
            end
     | _, _ => False
     end.
Lemma blocks_spec h named : forall s, trace_blocks dec_text pretty_text status_text date h named = Ok s ->
  exists xs, s = exchanges_text (h_name h) xs /\ Forall2 (fun nd x => block_shown h (fst nd) (snd nd) x) named xs.
Proof.
  induction named as [|[n d] named IH]; intros s H.
  - apply ok_inj in H; subst s. exists []. split; [reflexivity|constructor].
  - cbn [trace_blocks] in H. destruct (request_text_spec h (xd_req d)) as (rm & Er & Rm).
    apply rbind_Ok in H as (a & Ha & H). apply rbind_Ok in H as (t & Ht & H). apply ok_inj in H; subst s.
    destruct (IH t Ht) as (xs & -> & F). destruct (xd_res d) as [l|] eqn:Rd.
    + destruct (h_expected h) as [xp|] eqn:X; [|unfold response_text in Ha; rewrite X in Ha; discriminate].
      destruct (response_text_spec h n (xd_exc d) l xp X) as (m & Em & M). rewrite Em in Ha. cbn [rbind] in Ha. apply ok_inj in Ha; subst a.
      exists (mkXg n rm (Some m) :: xs). split.
      * cbn [exchanges_text]. unfold exchange_text. cbn [xg_name xg_request xg_response]. rewrite Er, !append_assoc. reflexivity.
      * constructor; [|exact F]. split; [reflexivity|]. split; [exact Rm|]. cbn [snd fst xg_response]. rewrite Rd. exists xp. auto.
    + apply ok_inj in Ha; subst a. exists (mkXg n rm None :: xs). split.
      * cbn [exchanges_text]. unfold exchange_text. cbn [xg_name xg_request xg_response]. rewrite Er, !append_assoc. reflexivity.
      * constructor; [|exact F]. split; [reflexivity|]. split; [exact Rm|]. cbn [snd fst xg_response]. rewrite Rd. exact Logic.I.
Qed.

Context (ord : list (string * exdata) -> list (string * exdata)) (Hord : forall l, Permutation (ord l) l).
Notation http_trace := (http_trace dec_text pretty_text status_text date ord).

Lemma request_named_iff h n ex : request_named h n ex <-> ask h n ex.
Proof. unfold request_named, ask. now rewrite request_iff. Qed.
Lemma answer_named_iff h n ex : answer_named h n ex <-> ans h n ex.
Proof. unfold answer_named, ans. now rewrite answer_iff. Qed.
Lemma failure_named_iff h n ex : failure_named h n ex <-> exc h n ex.
Proof. unfold failure_named, exc. now rewrite exception_some. Qed.

(** what the two loops make of the examples *)
Definition gathered (h : httpdef) (exs : list exampledef) (n : string) (d : exdata) : Prop :=
  (exists ex, last_that (request_named h n) exs ex /\ ex_example ex = VMap (xd_req d))
  /\ match xd_res d with
     | None => (forall ex, In ex exs -> ~ answer_named h n ex)
     | Some l => exists ex, last_that (answer_named h n) exs ex /\ ex_example ex = VMap l
     end
  /\ match xd_exc d with
     | None => forall ex, In ex exs -> ~ failure_named h n ex
     | Some e => exists ex, last_that (failure_named h n) exs ex /\ for_exception h ex e
     end.

Lemma gather h exs :
  let rq := capitalize (h_name h) +++ "Request" in
  let rs := capitalize (h_name h) +++ "Response" in
  match collect_requests rq exs [] with
  | Ok named =>
      (forall ex, In ex exs -> for_request h ex -> ~ not_object ex)
      /\ match collect_answers rq rs (h_exceptions h) exs named with
         | Ok named' => NoDup (keys named')
             /\ (forall n, In n (keys named') <-> exists ex, In ex exs /\ request_named h n ex)
             /\ (forall n d, In (n, d) named' -> gathered h exs n d)
             /\ (forall ex ex', In ex exs -> for_request h ex -> In ex' exs -> answer_named h (ex_name ex) ex' -> ~ not_object ex')
         | Panic => exists ex ex', In ex exs /\ for_request h ex /\ In ex' exs /\ answer_named h (ex_name ex) ex' /\ not_object ex'
         | _ => False
         end
  | Panic => exists ex, In ex exs /\ for_request h ex /\ not_object ex
  | _ => False
  end.
Proof.
  cbv zeta. destruct (collect_requests_spec h exs []) as [(named & R & ND & S & Ob)|(R & ex & I & T & N)]; [constructor| |]; rewrite R.
  2:{ exists ex. split; [exact I|]. split; [now apply request_iff|exact N]. }
  assert (Kn : forall n, In n (keys named) <-> exists ex, In ex exs /\ request_named h n ex).
  { intros n. split.
    - intros I. destruct (assoc n named) as [d|] eqn:A; [|apply assoc_None in A; contradiction].
      apply S in A as [(ex & l & L & _)|[_ A]]; [|discriminate]. apply last_in in L as [Ie Ae]. exists ex. rewrite request_named_iff. auto.
    - intros (ex & I & A). apply request_named_iff in A. destruct (last_or_none (ask h n) exs) as [N|[y L]].
      + intros x _. apply ask_dec.
      + destruct (N ex I A).
      + pose proof (last_in _ _ _ L) as [Iy Ay]. destruct (Ob y Iy) as [l El]; [apply Ay|].
        assert (E : assoc n named = Some (mkExData l None None)) by (apply S; left; exists y, l; auto).
        apply assoc_In in E. apply (in_map fst) in E. exact E. }
  split.
  { intros ex I T N. apply request_iff in T. destruct (Ob ex I T) as [l E]. now apply (N l). }
  destruct (collect_answers_spec h exs named ND) as [(named' & R' & K & S' & Ob')|(R' & ex' & n & I & A & Ik & N)]; rewrite R'.
  - rewrite K. split; [exact ND|]. split; [exact Kn|]. split.
    + intros n d' I.
      assert (A' : assoc n named' = Some d') by (apply assoc_NoDup; [rewrite K; exact ND|exact I]).
      assert (Ik : In n (keys named)) by (rewrite <- K; apply (in_map fst) in I; exact I).
      destruct (assoc n named) as [d|] eqn:A; [|apply assoc_None in A; contradiction].
      destruct (S' n d A) as (d'' & A'' & Aq & As & Ax). rewrite A' in A''. injection A'' as <-.
      apply S in A as [(ex & l & L & Ee & ->)|[_ A]]; [|discriminate]. cbn [xd_req xd_res xd_exc] in *.
      split; [|split].
      * exists ex. split; [|now rewrite Aq]. eapply last_ext; [|exact L]. intros x. symmetry. apply request_named_iff.
      * destruct As as [[N ->]|(x & l' & L' & Ex & ->)].
        -- intros x Ix. rewrite answer_named_iff. now apply N.
        -- exists x. split; [|exact Ex]. eapply last_ext; [|exact L']. intros y. symmetry. apply answer_named_iff.
      * destruct Ax as [[N ->]|(x & e & L' & Ex & ->)].
        -- intros x Ix. rewrite failure_named_iff. now apply N.
        -- exists x. split; [|exact Ex]. eapply last_ext; [|exact L']. intros y. symmetry. apply failure_named_iff.
    + intros ex ex' I T I' A N. apply answer_named_iff in A. destruct (Ob' ex' (ex_name ex) I' A) as [l E]; [|now apply (N l)].
      apply Kn. exists ex. split; [exact I|]. now split.
  - apply Kn in Ik as (ex & Ie & T & <-). exists ex, ex'. rewrite answer_named_iff. auto.
Qed.

Lemma trace_panic m h : http_trace m h = Panic <-> untraceable (sc_examples (m_schema m)) h.
Proof.
  unfold Trace.http_trace. cbv zeta. pose proof (gather h (sc_examples (m_schema m))) as G. cbv zeta in G.
  destruct (collect_requests _ _ []) as [named| | |] eqn:R; cbn [rbind]; [|destruct G| |destruct G].
  2:{ split; [intros _; left; exact G|reflexivity]. }
  destruct G as [Ob G]. destruct (collect_answers _ _ _ _ named) as [named'| | |] eqn:R'; cbn [rbind]; [|destruct G| |destruct G].
  2:{ split; [|reflexivity]. intros _. right. destruct G as (ex & ex' & A & B & C & D & E). exists ex, ex'. auto 6. }
  destruct G as (ND & K & S & Ob'). rewrite <- blocks_panic. split.
  - intros (n & d & I & A & X). apply (Permutation_in _ (Hord named')) in I. destruct (S n d I) as ((ex & L & Er) & As & _).
    destruct (xd_res d) as [l|]; [|now destruct A]. destruct As as (ex' & L' & El).
    apply last_in in L as [Ie [Te <-]], L' as [Ie' Ae']. right. exists ex, ex'. auto 6.
  - intros [(ex & I & T & N)|(ex & ex' & I & T & I' & A & [N|X])].
    + destruct (Ob ex I T N).
    + destruct (Ob' ex ex' I T I' A N).
    + assert (Ik : In (ex_name ex) (keys named')) by (apply K; exists ex; split; [exact I|now split]).
      apply in_map_iff in Ik as ([n d] & En & Id). cbn in En. subst n. exists (ex_name ex), d.
      split; [apply (Permutation_in _ (Permutation_sym (Hord named'))); exact Id|]. split; [|exact X].
      destruct (S _ _ Id) as (_ & As & _). destruct (xd_res d); [discriminate|]. destruct (As ex' I' A).
Qed.
Lemma trace_total m h : http_trace m h = Panic \/ exists s, http_trace m h = Ok s.
Proof.
  unfold Trace.http_trace. cbv zeta. pose proof (gather h (sc_examples (m_schema m))) as G. cbv zeta in G.
  destruct (collect_requests _ _ []) as [named| | |] eqn:R; cbn [rbind]; [|destruct G|now left|destruct G].
  destruct G as [Ob G]. destruct (collect_answers _ _ _ _ named) as [named'| | |] eqn:R'; cbn [rbind]; [|destruct G|now left|destruct G].
  apply blocks_total.
Qed.

Lemma trace_spec m h s : http_trace m h = Ok s -> exists xs, s = exchanges_text (h_name h) xs
  /\ action_shown dec_text pretty_text status_text date (sc_examples (m_schema m)) h xs.
Proof.
  unfold Trace.http_trace. cbv zeta. pose proof (gather h (sc_examples (m_schema m))) as G. cbv zeta in G.
  destruct (collect_requests _ _ []) as [named| | |] eqn:R; cbn [rbind]; [|destruct G|discriminate|destruct G].
  destruct G as [Ob G]. destruct (collect_answers _ _ _ _ named) as [named'| | |] eqn:R'; cbn [rbind]; [|destruct G|discriminate|destruct G].
  destruct G as (ND & K & S & Ob'). intros H. apply blocks_spec in H as (xs & -> & F). exists xs. split; [reflexivity|].
  assert (Nm : map xg_name xs = keys (ord named')).
  { clear - F. induction F as [|nd x named xs B F IH]; [reflexivity|]. cbn. f_equal; [apply B|exact IH]. }
  assert (P : Permutation (keys (ord named')) (keys named')) by (apply Permutation_map, Hord).
  split; [|split].
  - rewrite Nm. apply (Permutation_NoDup (Permutation_sym P)). exact ND.
  - intros n. rewrite Nm, <- K. split; apply Permutation_in; [exact P|now apply Permutation_sym].
  - assert (Q : forall nd, In nd (ord named') -> gathered h (sc_examples (m_schema m)) (fst nd) (snd nd)).
    { intros [n d] I. apply S. apply (Permutation_in _ (Hord named')). exact I. }
    clear - F Q. induction F as [|[n d] x named xs B F IH]; [constructor|]. constructor; [|apply IH; intros nd I; apply Q; now right].
    destruct (Q _ (or_introl eq_refl)) as ((ex & L & Er) & As & Ax). cbn [fst snd] in *. destruct B as (<- & Rm & Am). split.
    + exists ex, (xd_req d). auto.
    + unfold answer_shown. destruct (xd_res d) as [l|], (xg_response x) as [msg|]; try contradiction; [|exact As].
      destruct As as (ex' & L' & El). destruct Am as (xp & X & Am). exists ex', l, xp. split; [exact L'|]. split; [exact El|]. split; [exact X|].
      destruct (xd_exc d) as [e|]; [right|left; auto]. destruct Ax as (ex'' & L'' & Fe). exists ex'', e. auto.
Qed.

Lemma export_spec m : forall s, export_trace dec_text pretty_text status_text date ord m = Ok s -> exists xss,
  Forall2 (action_shown dec_text pretty_text status_text date (sc_examples (m_schema m))) (sc_http (m_schema m)) xss
  /\ s = fold_right (fun hx acc => exchanges_text (h_name (fst hx)) (snd hx) +++ newline +++ acc) "" (combine (sc_http (m_schema m)) xss).
Proof.
  unfold export_trace. induction (sc_http (m_schema m)) as [|h hs IH]; intros s H; cbn [trace_all] in H.
  - apply ok_inj in H; subst s. exists []. split; [constructor|reflexivity].
  - apply rbind_Ok in H as (a & Ha & H). apply rbind_Ok in H as (t & Ht & H). apply ok_inj in H; subst s.
    apply trace_spec in Ha as (xs & -> & A). destruct (IH t Ht) as (xss & F & ->). exists (xs :: xss). split; [now constructor|reflexivity].
Qed.
Lemma export_panic m : export_trace dec_text pretty_text status_text date ord m = Panic <->
  exists h, In h (sc_http (m_schema m)) /\ untraceable (sc_examples (m_schema m)) h.
Proof.
  unfold export_trace. induction (sc_http (m_schema m)) as [|h hs IH]; cbn [trace_all].
  - split; [discriminate|intros (h & [] & _)].
  - destruct (trace_total m h) as [E|(s & E)]; rewrite E; cbn [rbind].
    + split; [|reflexivity]. intros _. exists h. split; [now left|now apply trace_panic].
    + split.
      * intros H. destruct (trace_all _ _ _ _ _ m hs); try discriminate. destruct (proj1 IH eq_refl) as (h' & I & U). exists h'. split; [now right|exact U].
      * intros (h' & [<- |I] & U); [apply trace_panic in U; congruence|]. rewrite (proj2 IH); [reflexivity|]. exists h'. auto.
Qed.
Lemma export_total m : export_trace dec_text pretty_text status_text date ord m = Panic \/ exists s, export_trace dec_text pretty_text status_text date ord m = Ok s.
Proof.
  unfold export_trace. induction (sc_http (m_schema m)) as [|h hs IH]; cbn [trace_all]; [right; eexists; reflexivity|].
  destruct (trace_total m h) as [E|(s & E)]; rewrite E; cbn [rbind]; [now left|].
  destruct IH as [-> |(t & ->)]; cbn [rbind]; [now left|right; eexists; reflexivity].
Qed.
End T.
