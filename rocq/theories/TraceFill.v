From Verif Require Import GoStr Outcome Value Schema Misc Model HttpTrace Swagger Trace
  SpecTime SpecMisc SpecPV SpecGen SpecTrace MiscFacts PVFacts GenFacts TraceFacts TraceText.

(** ** Characters *)
Lemma no_char_app c a b : no_char c (a +++ b) <-> no_char c a /\ no_char c b.
Proof. rewrite !no_char_smem, smem_app, Bool.orb_false_iff. tauto. Qed.
Lemma no_char_cons c x s : no_char c (String x s) <-> x <> c /\ no_char c s.
Proof.
  rewrite !no_char_smem. cbn [smem]. rewrite Bool.orb_false_iff, ceqb_neq. split; intros [A B]; split; auto.
Qed.
Lemma no_char_nil c : no_char c "".
Proof. apply no_char_smem. reflexivity. Qed.
Lemma app_length_eq (a b c d : string) : a +++ b = c +++ d -> String.length a = String.length c -> a = c /\ b = d.
Proof.
  revert c. induction a as [|x a IH]; intros [|y c] E L; try discriminate; [auto|].
  injection E as -> E. injection L as L. destruct (IH c E L) as [-> ->]. auto.
Qed.
Lemma first_unique c (a b r s : string) : no_char c a -> no_char c b -> a +++ String c r = b +++ String c s -> a = b /\ r = s.
Proof.
  revert b. induction a as [|x a IH]; intros [|y b] Na Nb E.
  - injection E as ->. auto.
  - injection E as <- _. apply no_char_cons in Nb as [C _]. now destruct C.
  - injection E as -> _. apply no_char_cons in Na as [C _]. now destruct C.
  - injection E as -> E. apply no_char_cons in Na as [_ Na]. apply no_char_cons in Nb as [_ Nb].
    destruct (IH b Na Nb E) as [-> ->]. auto.
Qed.

(** ** Replacing *)
Lemma replaced_fun old new s t u : replaced old new s t -> replaced old new s u -> t = u.
Proof.
  intros R. revert u. induction R as [s N|a r r' F R IH]; intros u Q.
  - destruct Q as [s' N'|a r r' F R]; [reflexivity|]. destruct N. now exists a, r.
  - remember (a +++ old +++ r) as s eqn:E. destruct Q as [s' N'|a2 r2 r2' F2 R2].
    + destruct N'. now exists a, r.
    + assert (L : String.length a2 = String.length a).
      { apply Nat.le_antisymm; [apply (F2 a r); exact E|]. apply (F a2 r2). now symmetry. }
      destruct (app_length_eq _ _ _ _ E L) as [-> E']. apply append_inj_l in E' as ->. do 2 f_equal. now apply IH.
Qed.
Lemma replaced_cons old new c s t : (forall r, String c s <> old +++ r) -> replaced old new s t -> replaced old new (String c s) (String c t).
Proof.
  intros Np R. destruct R as [s N|a r r' F R].
  - apply rp_none. intros (a & b & E). destruct a as [|x a]; [exact (Np b E)|]. injection E as _ E. apply N. now exists a, b.
  - change (String c (a +++ old +++ r)) with (String c a +++ old +++ r). change (String c (a +++ new +++ r')) with (String c a +++ new +++ r').
    apply rp_first; [|exact R]. intros a' b' E. destruct a' as [|x a']; [destruct (Np b'); exact E|].
    injection E as _ E. cbn. apply le_n_S. now apply (F a' b').
Qed.
Lemma replaced_lit old new a s t : no_char "{" a -> replaced (String "{" old) new s t -> replaced (String "{" old) new (a +++ s) (a +++ t).
Proof.
  intros N R. induction a as [|c a IH]; [exact R|]. apply no_char_cons in N as [Nc N]. cbn. apply replaced_cons; [|now apply IH].
  intros r E. injection E as E _. contradiction.
Qed.

(** ** Templates as pieces *)
Inductive piece := Lit (s : string) | Hole (n : string).
Fixpoint render (l : list piece) : string :=
  match l with
  | [] => ""
  | Lit s :: r => s +++ render r
  | Hole n :: r => "{" +++ n +++ "}" +++ render r
  end.
Definition piece_ok (p : piece) : Prop :=
  match p with Lit s => no_char "{" s | Hole n => no_char "{" n /\ no_char "}" n end.
Definition put (n t : string) (p : piece) : piece :=
  match p with Hole k => if k =?s n then Lit t else p | _ => p end.

Lemma put_replaced n t l : Forall piece_ok l -> no_char "{" n -> no_char "}" n ->
  replaced ("{" +++ n +++ "}") t (render l) (render (map (put n t) l)).
Proof.
  intros F N1 N2. induction F as [|p l P F IH].
  - apply rp_none. intros (a & b & E). destruct a; discriminate.
  - destruct p as [s|k]; cbn [render map put].
    + cbn in P. apply (replaced_lit (n +++ "}")); [exact P|exact IH].
    + destruct P as [P1 P2]. destruct (k =?s n) eqn:E.
      * apply seqb_eq in E. subst k. cbn [render].
        replace ("{" +++ n +++ "}" +++ render l) with ("" +++ ("{" +++ n +++ "}") +++ render l) by (cbn; rewrite !append_assoc; reflexivity).
        apply (rp_first ("{" +++ n +++ "}") t ""); [intros; cbn; lia|exact IH].
      * apply seqb_neq in E. cbn [render].
        apply (replaced_cons ("{" +++ n +++ "}") t "{").
        -- intros r C. injection C as C. rewrite append_assoc in C. apply (first_unique "}") in C as [C _]; [contradiction|exact P2|exact N2].
        -- replace (k +++ "}" +++ render l) with ((k +++ "}") +++ render l) by apply append_assoc.
           change (k +++ String "}" (render (map (put n t) l))) with (k +++ "}" +++ render (map (put n t) l)).
           replace (k +++ "}" +++ render (map (put n t) l)) with ((k +++ "}") +++ render (map (put n t) l)) by apply append_assoc.
           apply (replaced_lit (n +++ "}")); [|exact IH]. apply no_char_app. split; [exact P1|]. apply no_char_smem. reflexivity.
Qed.
Lemma put_ok n t l : no_char "{" t -> Forall piece_ok l -> Forall piece_ok (map (put n t) l).
Proof.
  intros N F. induction F as [|p l P F IH]; [constructor|]. constructor; [|exact IH].
  destruct p as [s|k]; [exact P|]. cbn [put]. destruct (k =?s n); [exact N|exact P].
Qed.

Definition put_val (val : string -> string) (p : piece) : string := match p with Lit s => s | Hole n => val n end.
Lemma filled_pieces val s t : filled val s t -> exists l, s = render l /\ Forall piece_ok l
  /\ t = fold_right (fun p acc => put_val val p +++ acc) "" l.
Proof.
  intros F. induction F as [a N|a n r r' N N1 N2 F (l & -> & P & ->)].
  - exists [Lit a]. cbn. rewrite append_nil_r. split; [reflexivity|]. split; [repeat constructor; exact N|reflexivity].
  - exists (Lit a :: Hole n :: l). cbn [render fold_right put_val]. split; [reflexivity|]. split; [|reflexivity].
    constructor; [exact N|]. constructor; [split; assumption|exact P].
Qed.

Section F.
Context (dec_text : decimal -> string) (pretty_text : value -> string).
Notation values_for := (values_for dec_text).

Lemma shown_fun v t u : shown dec_text v t -> shown dec_text v u -> t = u.
Proof.
  intros H K. destruct H; inversion K; subst; try reflexivity; exfalso;
    match goal with N : forall _, _ <> _ |- _ => eapply N; reflexivity end.
Qed.
Lemma entry_some l n : exists v, entry l n v.
Proof. eexists. apply entry_of. Qed.
Lemma entry_fun l n v w : entry l n v -> entry l n w -> v = w.
Proof.
  intros [(a & b & -> & N)|[N ->]] [(a' & b' & E & N')|[N' ->]].
  - revert a' E N'. induction a as [|[k x] a IH]; intros [|[k' x'] a'] E N'.
    + injection E as <- _. reflexivity.
    + injection E as <- _ _. destruct N'. now left.
    + injection E as -> _ _. destruct N. now left.
    + injection E as <- _ E. apply (IH (fun C => N (or_intror C)) a' E). intros C. apply N'. now right.
  - destruct N'. rewrite map_app, in_app_iff. right. now left.
  - subst l. destruct N. rewrite map_app, in_app_iff. right. now left.
  - reflexivity.
Qed.

(** the pieces after some of the inputs *)
Lemma put_in_pieces l val ins : forall ps s',
  (forall p v, In p ins -> in_line p -> entry l (name_of p) v -> shown dec_text v (val (name_of p))) -> plain_lines ins val ->
  Forall piece_ok ps -> put_in dec_text l ins (render ps) s' ->
  exists qs, s' = render qs
    /\ Forall2 (fun p q => q = p \/ exists n, p = Hole n /\ q = Lit (val n)) ps qs
    /\ (forall n, In (Hole n) qs -> forall p, In p ins -> in_line p -> name_of p <> n).
Proof.
  induction ins as [|p ins IH]; intros ps s' V Pl F Q.
  - inversion Q; subst. exists ps. split; [reflexivity|]. split; [|intros n _ p []].
    clear. induction ps; constructor; auto.
  - assert (V' : forall q v, In q ins -> in_line q -> entry l (name_of q) v -> shown dec_text v (val (name_of q))) by (intros q v Iq; apply V; now right).
    assert (Pl' : plain_lines ins val) by (intros q Iq; apply Pl; now right).
    inversion Q as [|p' ps' s0 s0' Nl Q' E1 E2 E3|p' ps' v t s0 s1 s0' Il Ev Sh R Q' E1 E2 E3]; subst.
    + destruct (IH ps s' V' Pl' F Q') as (qs & -> & F2 & H). exists qs. split; [reflexivity|]. split; [exact F2|].
      intros n I q [<- |Iq]; [intros C; contradiction|now apply H].
    + assert (Et : t = val (name_of p)) by (apply (shown_fun v); [exact Sh|apply V; [now left|exact Il|exact Ev]]). subst t.
      destruct (Pl p (or_introl eq_refl) Il) as (P1 & P2 & P3).
      rewrite (replaced_fun _ _ _ _ _ R (put_replaced (name_of p) (val (name_of p)) ps F P1 P2)) in Q'.
      destruct (IH _ s' V' Pl' (put_ok _ _ _ P3 F) Q') as (qs & -> & F2 & H). exists qs. split; [reflexivity|]. split.
      * clear - F2. revert qs F2. induction ps as [|x ps IH]; intros qs F2; inversion F2 as [|a b la lb H2 F3]; subst; constructor; [|now apply IH].
        destruct x as [s|k]; cbn [put] in H2.
        -- destruct H2 as [-> |(n & C & _)]; [now left|discriminate].
        -- destruct (k =?s name_of p) eqn:E; [apply seqb_eq in E; subst k|exact H2].
           destruct H2 as [-> |(n & C & _)]; [|discriminate]. right. eexists. split; reflexivity.
      * intros n I q [<- |Iq] Iq2; [|now apply H]. intros En.
        assert (G : In (Hole n) (map (put (name_of p) (val (name_of p))) ps)).
        { clear - F2 I. revert F2. generalize (map (put (name_of p) (val (name_of p))) ps). intros ws F2.
          induction F2 as [|a b la lb H2 F3 IHf]; [destruct I|]. destruct I as [-> |I]; [|right; now apply IHf].
          destruct H2 as [<- |(k & _ & C)]; [now left|discriminate]. }
        apply in_map_iff in G as (x & E & _). destruct x as [s|k]; [discriminate|]. cbn [put] in E.
        destruct (k =?s name_of p) eqn:K; [discriminate|]. injection E as E. apply seqb_neq in K. congruence.
Qed.

Lemma put_in_filled l val ins s t s' : values_for ins l val -> plain_lines ins val -> filled val s t ->
  put_in dec_text l ins s s' -> s' = t.
Proof.
  intros [V W] Pl F Q. apply filled_pieces in F as (ps & -> & P & ->).
  destruct (put_in_pieces l val ins ps s' V Pl P Q) as (qs & -> & F2 & H). clear Q V P.
  induction F2 as [|p q ps qs Hq F2 IH]; [reflexivity|]. cbn [fold_right].
  rewrite <- IH by (intros n I; apply H; now right).
  destruct Hq as [-> |(n & -> & ->)]; [|reflexivity]. destruct p as [s|n]; [reflexivity|]. cbn [render put_val].
  rewrite (W n), !append_assoc; [reflexivity|]. apply H. now left.
Qed.

(** *** the query *)
Lemma filled_no c val s t : filled val s t -> no_char c s -> (forall n, no_char c n -> no_char c (val n)) -> no_char c t.
Proof.
  intros F N V. induction F as [a _|a n r r' N0 N1 N2 F IH]; [exact N|].
  apply no_char_app in N as [Na N]. apply no_char_app in N as [_ N]. apply no_char_app in N as [Nn N]. apply no_char_app in N as [_ N].
  apply no_char_app. split; [exact Na|]. apply no_char_app. split; [now apply V|now apply IH].
Qed.
Lemma filled_app val a a' s s' : filled val a a' -> filled val s s' -> filled val (a +++ s) (a' +++ s').
Proof.
  intros F G. induction F as [a N|a n r r' N N1 N2 F IH].
  - destruct G as [b Nb|b n r r' Nb N1 N2 G].
    + apply fl_end. apply no_char_app. auto.
    + rewrite <- !(append_assoc a). apply fl_var; auto. apply no_char_app. auto.
  - rewrite !append_assoc. apply fl_var; auto.
Qed.
Lemma filled_items val ks : ks <> [] -> Forall item_ok ks ->
  filled val (join "&" (map item_text ks)) (join "&" (map (item_value val) ks)).
Proof.
  intros Ne F.
  assert (One : forall kn, item_ok kn -> filled val (item_text kn) (item_value val kn)).
  { intros [k n] ((A & _) & B & C). unfold item_text, item_value. cbn [fst snd] in *.
    replace (k +++ "={" +++ n +++ "}") with ((k +++ "=") +++ "{" +++ n +++ "}" +++ "") by (rewrite !append_assoc; reflexivity).
    replace (k +++ "=" +++ val n) with ((k +++ "=") +++ val n +++ "") by (rewrite append_nil_r, !append_assoc; reflexivity).
    apply fl_var; [|exact B|exact C|apply fl_end, no_char_nil]. apply no_char_app. split; [exact A|]. apply no_char_smem. reflexivity. }
  induction F as [|kn ks P F IH]; [now destruct Ne|]. destruct ks as [|kn' ks].
  - cbn. now apply One.
  - change (map item_text (kn :: kn' :: ks)) with (item_text kn :: map item_text (kn' :: ks)).
    change (map (item_value val) (kn :: kn' :: ks)) with (item_value val kn :: map (item_value val) (kn' :: ks)).
    change (join "&" (item_text kn :: map item_text (kn' :: ks))) with (item_text kn +++ "&" +++ join "&" (map item_text (kn' :: ks))).
    change (join "&" (item_value val kn :: map (item_value val) (kn' :: ks))) with (item_value val kn +++ "&" +++ join "&" (map (item_value val) (kn' :: ks))).
    apply filled_app; [now apply One|]. apply (filled_app val "&" "&"); [apply fl_end, no_char_smem; reflexivity|]. apply IH. discriminate.
Qed.

Lemma target_fun s p l p' l' : target s p l -> target s p' l' -> p = p' /\ l = l'.
Proof.
  intros T T'. destruct T as [p N|p i l N F].
  - destruct T' as [p' N'|p' i l N' F]; [auto|]. apply no_char_app in N as [_ C]. apply no_char_cons in C as [C _]. now destruct C.
  - remember (p +++ "?" +++ join "&" (i :: l)) as s eqn:E. destruct T' as [p' N'|p' i' l' N' F'].
    + subst p'. apply no_char_app in N' as [_ C]. apply no_char_cons in C as [C _]. now destruct C.
    + apply (first_unique "?") in E as [-> E]; [|exact N'|exact N]. split; [reflexivity|]. cbn [append] in E.
      rewrite <- (split_join "&" (i' :: l')), <- (split_join "&" (i :: l)); [|discriminate| |discriminate| ].
      * f_equal. symmetry. exact E.
      * intros x Hx. apply no_char_smem, F, Hx.
      * intros x Hx. apply no_char_smem, F', Hx.
Qed.

Lemma request_line h l val s m : values_for (h_inputs h) l val -> plain_lines (h_inputs h) val -> filled val (h_path h) s ->
  request_shown dec_text pretty_text h l m -> exists t, stripped s t /\ ms_start m = h_method h +++ " " +++ t +++ " HTTP/1.1".
Proof.
  intros V P F ((s' & t & Q & S & E) & _). rewrite (put_in_filled l val _ _ _ _ V P F Q) in S. exists t. auto.
Qed.
Lemma request_query h l val p p' ks m : values_for (h_inputs h) l val -> plain_lines (h_inputs h) val ->
  (forall n, no_char "?" n -> no_char "?" (val n)) ->
  no_char "?" p -> filled val p p' -> ks <> [] -> Forall item_ok ks ->
  (forall kn, In kn ks -> no_char "&" (val (snd kn)) /\ ~ exists w, val (snd kn) = w +++ "=") ->
  h_path h = p +++ "?" +++ join "&" (map item_text ks) ->
  request_shown dec_text pretty_text h l m ->
  exists t kept, ms_start m = h_method h +++ " " +++ t +++ " HTTP/1.1" /\ target t p' kept
    /\ without (fun x => has_value x "") (map (item_value val) ks) kept.
Proof.
  intros V P Vq Np F Ne Ki Kv E Rq.
  assert (Fl : filled val (h_path h) (p' +++ "?" +++ join "&" (map (item_value val) ks))).
  { rewrite E. apply filled_app; [exact F|]. apply (filled_app val "?" "?"); [apply fl_end, no_char_smem; reflexivity|]. now apply filled_items. }
  destruct (request_line h l val _ m V P Fl Rq) as (t & (p2 & items & kept & T & W & T') & Em).
  assert (T0 : target (p' +++ "?" +++ join "&" (map (item_value val) ks)) p' (map (item_value val) ks)).
  { destruct ks as [|k0 ks]; [now destruct Ne|]. apply tg_query; [now apply (filled_no "?" val p)|].
    intros x Hx. change (In x (map (item_value val) (k0 :: ks))) in Hx. apply in_map_iff in Hx as (kn & <- & I).
    rewrite Forall_forall in Ki. destruct (Ki kn I) as ((_ & A & _) & _). unfold item_value.
    apply no_char_app. split; [exact A|]. apply no_char_app. split; [apply no_char_smem; reflexivity|]. now apply Kv. }
  destruct (target_fun _ _ _ _ _ T T0) as [-> ->]. exists t, kept. split; [exact Em|]. split; [exact T'|].
  apply (without_ext (fun x => exists b, x = b +++ "=")); [|exact W]. intros x Hx. apply in_map_iff in Hx as (kn & <- & I).
  rewrite Forall_forall in Ki. destruct (Ki kn I) as ((_ & _ & A) & _). destruct (Kv kn I) as [_ Nw]. unfold item_value. split.
  - intros B. apply value_empty in B. destruct B as [B|B]; [|contradiction]. exists (fst kn). split; [exact A|now rewrite B].
  - intros (k & Nk & B). apply (first_unique "=") in B as [_ B]; [|exact A|exact Nk]. rewrite B. exists (fst kn). reflexivity.
Qed.
End F.

(** ** Reading messages *)
Lemma header_lines_fun s hs b hs' b' : header_lines s hs b -> header_lines s hs' b' -> hs = hs' /\ b = b'.
Proof.
  intros H. revert hs' b'. induction H as [b|k v r hs b K1 K2 K3 K4 H IH]; intros hs' b' Q.
  - remember (newline +++ b) as s eqn:E. destruct Q as [b'|k v r hs b' K1 K2 K3 K4 Q].
    + injection E as ->. auto.
    + destruct k as [|c k]; [now destruct K1|]. injection E as -> _. apply no_char_cons in K3 as [C _]. now destruct C.
  - remember (k +++ ": " +++ v +++ newline +++ r) as s eqn:E. destruct Q as [b'|k' v' r' hs' b' K1' K2' K3' K4' Q].
    + destruct k as [|c k]; [now destruct K1|]. injection E as <- _. apply no_char_cons in K3 as [C _]. now destruct C.
    + apply (first_unique ":") in E as [-> E]; [|exact K2'|exact K2]. injection E as E.
      apply (first_unique "010") in E as [-> ->]; [|exact K4'|exact K4]. destruct (IH hs' b' Q) as [-> ->]. auto.
Qed.
Lemma reads_fun s m m' : reads_as s m -> reads_as s m' -> m = m'.
Proof.
  intros (r & -> & N & H) (r' & E & N' & H'). apply (first_unique "010") in E as [E ->]; [|exact N|exact N'].
  destruct (header_lines_fun _ _ _ _ _ H H') as [Eh Eb]. destruct m, m'. cbn in *. now subst.
Qed.
Lemma header_lines_text hs b : Forall (fun kv => fst kv <> "" /\ no_char ":" (fst kv) /\ no_char "010" (fst kv) /\ no_char "010" (snd kv)) hs ->
  header_lines (header_text hs +++ newline +++ b) hs b.
Proof.
  intros F. induction F as [|[k v] hs (A & B & C & D) F IH]; [apply hr_end|]. cbn [header_text fst snd] in *.
  rewrite !append_assoc. apply hr_line; auto.
Qed.
Lemma message_reads m : no_char "010" (ms_start m) ->
  Forall (fun kv => fst kv <> "" /\ no_char ":" (fst kv) /\ no_char "010" (fst kv) /\ no_char "010" (snd kv)) (ms_headers m) ->
  reads_as (message_text m) m.
Proof. intros N F. eexists. split; [reflexivity|]. split; [exact N|]. now apply header_lines_text. Qed.

Section R.
Context (dec_text : decimal -> string) (pretty_text : value -> string) (status_text : Z -> string) (date : string -> string -> string).

Lemma params_plain P l ps hs : header_params dec_text P l ps hs ->
  (forall p, In p ps -> P p -> header_name (ps_header p)) ->
  (forall p v t, In p ps -> entry l (name_of p) v -> shown dec_text v t -> no_char "010" t) ->
  Forall (fun kv => fst kv <> "" /\ no_char ":" (fst kv) /\ no_char "010" (fst kv) /\ no_char "010" (snd kv)) hs.
Proof.
  intros H. induction H as [|p ps hs N H IH|p ps hs v t Pp E S H IH]; intros A B; [constructor| |].
  - apply IH; [intros q I; apply A; now right|intros q v t I; apply B; now right].
  - constructor; [|apply IH; [intros q I; apply A; now right|intros q w u I; apply B; now right]].
    destruct (A p (or_introl eq_refl) Pp) as (X & Y & Z). cbn. repeat split; auto. apply (B p v t); auto. now left.
Qed.
Lemma replaced_plain old new s t : no_char "010" new -> replaced old new s t -> no_char "010" s -> no_char "010" t.
Proof.
  intros N R. induction R as [s _|a r r' _ R IH]; intros H; [exact H|].
  apply no_char_app in H as [Ha H]. apply no_char_app in H as [_ H]. apply no_char_app. split; [exact Ha|]. apply no_char_app. auto.
Qed.
Lemma put_in_plain l ins s t : put_in dec_text l ins s t ->
  (forall p v u, In p ins -> entry l (name_of p) v -> shown dec_text v u -> no_char "010" u) -> no_char "010" s -> no_char "010" t.
Proof.
  intros H. induction H as [s|p ps s s' N H IH|p ps v u s s1 s' I E S R H IH]; intros B Ns; [exact Ns| |].
  - apply IH; [intros q w x Iq; apply B; now right|exact Ns].
  - apply IH; [intros q w x Iq; apply B; now right|]. apply (replaced_plain _ _ _ _ (B p v u (or_introl eq_refl) E S) R Ns).
Qed.
Lemma join_plain c sep l : no_char c (join sep l) -> forall x, In x l -> no_char c x.
Proof.
  induction l as [|x l IH]; intros H y I; [destruct I|]. destruct l as [|z l].
  - destruct I as [<- |[]]. exact H.
  - change (join sep (x :: z :: l)) with (x +++ sep +++ join sep (z :: l)) in H.
    apply no_char_app in H as [A H]. apply no_char_app in H as [_ H]. destruct I as [<- |I]; [exact A|now apply IH].
Qed.
Lemma plain_join c sep l : no_char c sep -> (forall x, In x l -> no_char c x) -> no_char c (join sep l).
Proof.
  intros Ns. induction l as [|x l IH]; intros H; [apply no_char_nil|]. destruct l as [|z l].
  - cbn. apply H. now left.
  - change (join sep (x :: z :: l)) with (x +++ sep +++ join sep (z :: l)). rewrite !no_char_app.
    split; [apply H; now left|]. split; [exact Ns|]. apply IH. intros y I. apply H. now right.
Qed.
Lemma stripped_plain s t : stripped s t -> no_char "010" s -> no_char "010" t.
Proof.
  intros (p & l & k & T & W & T') N.
  assert (H : no_char "010" p /\ forall x, In x l -> no_char "010" x).
  { destruct T as [p _|p i l _ _]; [split; [exact N|intros x []]|]. apply no_char_app in N as [A N]. apply no_char_app in N as [_ N].
    split; [exact A|]. now apply (join_plain _ "&"). }
  destruct H as [Hp Hl].
  assert (Hk : forall x, In x k -> no_char "010" x).
  { clear - W Hl. induction W as [|x l l' Px W IH|x l l' Nx W IH]; [intros x []| |].
    - apply IH. intros y I. apply Hl. now right.
    - intros y [<- |I]; [apply Hl; now left|]. apply IH; [|exact I]. intros z Iz. apply Hl. now right. }
  destruct T' as [p _|p i k' _ _]; [exact Hp|]. rewrite !no_char_app. split; [exact Hp|].
  split; [apply no_char_smem; reflexivity|]. apply plain_join; [apply no_char_smem; reflexivity|exact Hk].
Qed.
Lemma request_reads h l m : request_shown dec_text pretty_text h l m -> no_char "010" (h_method h) -> no_char "010" (h_path h) ->
  (forall p, In p (h_inputs h) -> in_header p -> header_name (ps_header p)) ->
  (forall p v t, In p (h_inputs h) -> entry l (name_of p) v -> shown dec_text v t -> no_char "010" t) ->
  reads_as (message_text m) m.
Proof.
  intros ((s & t & Q & S & E) & (hs & H & Eh) & _) Nm Np A B. apply message_reads.
  - rewrite E, !no_char_app. split; [exact Nm|]. split; [apply no_char_smem; reflexivity|]. split; [|apply no_char_smem; reflexivity].
    apply (stripped_plain s t S). now apply (put_in_plain _ _ _ _ Q B).
  - rewrite Eh. apply Forall_app. split; [now apply (params_plain _ _ _ _ H)|]. repeat constructor; cbn; try discriminate; apply no_char_smem; reflexivity.
Qed.
Lemma digits_plain d n : digits d n -> no_char "010" d.
Proof.
  intros D. induction D as [c n B K|s m c n D IH B K].
  - apply no_char_cons. split; [|apply no_char_nil]. intros ->. change (Z.of_nat (nat_of_ascii "010")) with 10%Z in K. lia.
  - apply no_char_app. split; [exact IH|]. apply no_char_cons. split; [|apply no_char_nil]. intros ->.
    change (Z.of_nat (nat_of_ascii "010")) with 10%Z in K. lia.
Qed.
Lemma numeral_plain s z : numeral s z -> no_char "010" s.
Proof.
  intros (d & D & _ & [[_ ->]|[_ ->]]); apply digits_plain in D; [|exact D]. apply no_char_cons. split; [discriminate|exact D].
Qed.
Lemma answer_reads h n exs m : answer_shown dec_text pretty_text status_text date h n exs (Some m) ->
  (forall z, no_char "010" (status_text z)) -> (forall a b, no_char "010" (date a b)) ->
  (forall x p, h_expected h = Some x -> In p (xp_outputs x) -> ps_header p <> "" -> header_name (ps_header p)) ->
  (forall ex l p x v t, In ex exs -> ex_example ex = VMap l -> h_expected h = Some x -> In p (xp_outputs x) ->
     entry l (name_of p) v -> shown dec_text v t -> no_char "010" t) ->
  reads_as (message_text m) m.
Proof.
  intros (ex & l & x & L & El & Ex & D) Ns Nd A B.
  assert (G : forall st hs, message_with status_text st hs m ->
    Forall (fun kv => fst kv <> "" /\ no_char ":" (fst kv) /\ no_char "010" (fst kv) /\ no_char "010" (snd kv)) hs -> reads_as (message_text m) m).
  { intros st hs ((d & Nu & E) & v & Nv & Eh) F. apply message_reads.
    - rewrite E, !no_char_app. split; [apply no_char_smem; reflexivity|]. split; [now apply (numeral_plain d st)|].
      split; [apply no_char_smem; reflexivity|apply Ns].
    - rewrite Eh. constructor; [|constructor; [|exact F]].
      + cbn. repeat split; try discriminate; try (apply no_char_smem; reflexivity). now apply (numeral_plain v _ Nv).
      + cbn. repeat split; try discriminate; apply no_char_smem; reflexivity. }
  assert (Fd : forall a b, Forall (fun kv => fst kv <> "" /\ no_char ":" (fst kv) /\ no_char "010" (fst kv) /\ no_char "010" (snd kv)) [("Date", date a b)]).
  { intros a b. repeat constructor; cbn; try discriminate; try (apply no_char_smem; reflexivity). apply Nd. }
  destruct D as [(_ & (hs & H & M) & _)|(ex' & e & _ & _ & M & _)].
  - apply (G _ _ M). apply Forall_app. split; [|apply Fd]. apply (params_plain _ _ _ _ H); [intros p I; now apply (A x)|].
    intros p v t I En Sh. apply last_in in L as [Ie _]. now apply (B ex l p x v t).
  - apply (G _ _ M), Fd.
Qed.
End R.
