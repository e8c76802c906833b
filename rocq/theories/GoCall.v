(** What reaches the generated Go server from the generated Go client. *)
From Verif Require Import GoStr Outcome Value Schema Scalars Model SpecTime SpecMisc SpecModel SpecPV SpecTrace SpecGo SpecGoServer SpecGoClient SpecGoCall
  ModelFacts TimeFacts PVFacts TraceFacts TraceFill GoServerFacts GoRoute GoReceive.
From Coq Require Import Lia.

Lemma plain_no_char c s : unreserved c = false -> plain s -> no_char c s.
Proof.
  intros U. induction s as [|d s IH]; intros P; [apply no_char_nil|]. destruct P as [P Q]. apply no_char_cons. split; [|auto]. intros ->. congruence.
Qed.
Lemma plain_app a b : plain (a +++ b) <-> plain a /\ plain b.
Proof. induction a as [|c a IH]; cbn; [tauto|]. rewrite IH. tauto. Qed.
Lemma digits_plain d n : digits d n -> plain d.
Proof.
  assert (X : forall c k, (0 <= k < 10)%Z -> Z.of_nat (nat_of_ascii c) = (48 + k)%Z -> unreserved c = true).
  { intros c k K E. unfold unreserved. assert (A : 48 <= nat_of_ascii c <= 57) by lia. destruct A as [A B].
    apply Nat.leb_le in A. apply Nat.leb_le in B. rewrite A, B. reflexivity. }
  induction 1 as [c k K E|s m c k H IH K E]; [cbn; split; eauto|]. apply plain_app. split; [exact IH|]. cbn. split; eauto.
Qed.
Lemma numeral_unreserved s z : numeral s z -> plain s.
Proof. intros (d & D & _ & [[N ->]|[N ->]]); apply digits_plain in D; [cbn; split; [reflexivity|]|]; exact D. Qed.
Lemma decode_plain q s : no_char "%" s -> (q = true -> no_char "+" s) -> decode q s = Some s.
Proof.
  induction s as [|c s IH]; intros N M; [reflexivity|]. cbn [decode]. apply no_char_cons in N as [C N].
  assert (E : Ascii.eqb c "%" = false) by (apply Ascii.eqb_neq; exact C). rewrite E.
  rewrite IH; [|exact N|intros Q; apply (no_char_cons "+" c s); apply M; exact Q]. cbn [option_map]. do 2 f_equal.
  destruct q; [|reflexivity]. assert (D : Ascii.eqb c "+" = false) by (apply Ascii.eqb_neq; apply (no_char_cons "+" c s); apply M; reflexivity). rewrite D. reflexivity.
Qed.
Lemma cut_here c a b : no_char c a -> cut_at c (a +++ String c b) = (a, Some b).
Proof.
  induction a as [|d a IH]; intros N; cbn [append cut_at]; [rewrite Ascii.eqb_refl; reflexivity|]. apply no_char_cons in N as [C N].
  assert (E : Ascii.eqb d c = false) by (apply Ascii.eqb_neq; exact C). rewrite E, (IH N). reflexivity.
Qed.
Lemma cut_none c a : no_char c a -> cut_at c a = (a, None).
Proof.
  induction a as [|d a IH]; intros N; [reflexivity|]. cbn [cut_at]. apply no_char_cons in N as [C N].
  assert (E : Ascii.eqb d c = false) by (apply Ascii.eqb_neq; exact C). rewrite E, (IH N). reflexivity.
Qed.
Lemma pieces_none c a : no_char c a -> pieces c a = [a].
Proof.
  induction a as [|d a IH]; intros N; [reflexivity|]. cbn [pieces]. apply no_char_cons in N as [C N].
  assert (E : Ascii.eqb d c = false) by (apply Ascii.eqb_neq; exact C). rewrite E, (IH N). reflexivity.
Qed.
Lemma pieces_app c a b : no_char c a -> pieces c (a +++ String c b) = a :: pieces c b.
Proof.
  induction a as [|d a IH]; intros N; cbn [append pieces]; [rewrite Ascii.eqb_refl; reflexivity|]. apply no_char_cons in N as [C N].
  assert (E : Ascii.eqb d c = false) by (apply Ascii.eqb_neq; exact C). rewrite E, (IH N). reflexivity.
Qed.
Lemma pieces_concat l : l <> [] -> Forall (no_char "&") l -> pieces "&" (String.concat "&" l) = l.
Proof.
  induction l as [|a l IH]; intros NE F; [congruence|]. inversion F as [|? ? A B]; subst. destruct l as [|b l]; [cbn; apply pieces_none; exact A|].
  change (String.concat "&" (a :: b :: l)) with (a +++ String "&" (String.concat "&" (b :: l))). rewrite (pieces_app _ _ _ A), IH; [reflexivity|discriminate|exact B].
Qed.
Lemma concat_no_char c l : c <> "&"%char -> Forall (no_char c) l -> no_char c (String.concat "&" l).
Proof.
  intros N. induction 1 as [|a l A F IH]; [apply no_char_nil|]. destruct l as [|b l]; [exact A|].
  change (String.concat "&" (a :: b :: l)) with (a +++ String "&" (String.concat "&" (b :: l))). apply no_char_app. split; [exact A|]. apply no_char_cons. auto.
Qed.
Lemma pair_plain k v : plain k -> plain v -> pair_of (k +++ "=" +++ v) = Some (k, v).
Proof.
  intros K V. unfold pair_of. change ("=" +++ v) with (String "=" v). rewrite (cut_here "=" k v) by (apply plain_no_char; [reflexivity|exact K]).
  rewrite !decode_plain; try reflexivity; intros; apply plain_no_char; try assumption; reflexivity.
Qed.

Section CALL.
Context (sch : schema) (m : model) (Hm : new_model sch = Ok m).
Notation basef := (base_fun sch m Hm).

(** the texts that a call puts into the query *)
Inductive sent (a : call) : list paramspec -> list (string * string) -> Prop :=
| sn_nil : sent a [] []
| sn_none p ps l : ps_query p = "" -> sent a ps l -> sent a (p :: ps) l
| sn_zero p ps l f : ps_query p <> "" -> large_first (fd_name (ps_field p)) f -> zero_call (a f) -> sent a ps l -> sent a (p :: ps) l
| sn_text p ps l f s : ps_query p <> "" -> large_first (fd_name (ps_field p)) f -> a f = RText s -> s <> "" -> plain s -> sent a ps l -> sent a (p :: ps) ((ps_query p, s) :: l)
| sn_int p ps l f z s : ps_query p <> "" -> large_first (fd_name (ps_field p)) f -> a f = RInt z -> z <> 0%Z -> numeral s z -> sent a ps l ->
    sent a (p :: ps) ((ps_query p, s) :: l).
Lemma form_of n ts b z v : defines sch n ts -> based sch n b -> plain_form b z v ->
  (ts_type ts = "String" -> z = """""" /\ v = "%s") /\ (In (ts_type ts) ints -> z = "0" /\ v = "%d").
Proof.
  intros D B F. assert (b = ts_type ts) as -> by (destruct B as [(ts' & D' & ->)|[K _]]; [f_equal; eapply basef; eassumption|destruct K; exists ts; exact D]).
  split; intros T; inversion F as [E|E|E|E|E]; subst; auto; exfalso; try (rewrite T in E; cbn in E; intuition discriminate);
    try (rewrite E in T; cbn in T; intuition discriminate); try (apply E; rewrite !in_app_iff; auto).
  - destruct T as [T|[T|[T|[T|[]]]]]; rewrite <- T in E; cbn in E; intuition discriminate.
Qed.
Lemma widths_ints t b : In (t, b) widths -> In t ints.
Proof. intros I. apply widths_cases in I. cbn. intuition. Qed.
Lemma arguments_sent a ins : forall qs l, queries_shown sch ins qs -> arguments a qs l ->
  (forall p, In p ins -> ps_query p <> "" -> same_key p /\ forall f, large_first (fd_name (ps_field p)) f -> carries sch (ts_type (fd_spec (ps_field p))) (a f)) ->
  exists kvs, sent a ins kvs /\ l = map (fun kv => fst kv +++ "=" +++ snd kv) kvs.
Proof.
  induction ins as [|p ins IH]; intros qs l Q A C.
  - inversion Q; subst. inversion A; subst. exists []. split; [constructor|reflexivity].
  - assert (C' : forall q, In q ins -> ps_query q <> "" -> same_key q /\ forall f, large_first (fd_name (ps_field q)) f -> carries sch (ts_type (fd_spec (ps_field q))) (a f))
      by (intros q J; apply C; right; exact J).
    inversion Q as [|p' ps l' Z Q'|p' ps l' f b z v Z L B F Q']; subst.
    + destruct (IH _ _ Q' A C') as (kvs & S & E). exists kvs. split; [apply sn_none; assumption|exact E].
    + destruct (C p (or_introl eq_refl) Z) as [[SK PK] CV]. specialize (CV f L). inversion A as [|q qs l0 ZV A'|q qs l0 s NZ PR A']; subst; cbn [cq_zero cq_field cq_key cq_verb] in *.
      * destruct (IH _ _ Q' A' C') as (kvs & S & E). exists kvs. split; [|exact E]. eapply sn_zero; eauto. destruct ZV as [[_ ZV]|[_ ZV]]; [left|right]; exact ZV.
      * destruct (IH _ _ Q' A' C') as (kvs & S & E). exists ((ps_query p, s) :: kvs). split; [|cbn; rewrite E, SK; reflexivity].
        inversion CV as [ts t D T P E1|ts w i D I R E1].
        -- rewrite <- E1 in *. destruct (proj1 (form_of _ _ _ _ _ D B F) T) as [-> ->]. inversion PR; subst. eapply sn_text; eauto.
           intros ->. apply NZ. left. auto.
        -- rewrite <- E1 in *. destruct (proj2 (form_of _ _ _ _ _ D B F) (widths_ints _ _ I)) as [-> ->]. inversion PR; subst. eapply sn_int; eauto.
           intros ->. apply NZ. right. auto.
Qed.
Lemma sent_plain a ins kvs : sent a ins kvs -> (forall p, In p ins -> ps_query p <> "" -> plain (ps_query p)) -> Forall (fun kv => plain (fst kv) /\ plain (snd kv)) kvs.
Proof.
  induction 1 as [|p ps l Q S IH|p ps l f Q L Z S IH|p ps l f s Q L E N P S IH|p ps l f z s Q L E N P S IH]; intros C; try (apply IH; intros q J; apply C; right; exact J); [constructor| |].
  - constructor; [split; [apply C; [left; reflexivity|exact Q]|exact P]|]. apply IH. intros q J. apply C. right. exact J.
  - constructor; [split; [apply C; [left; reflexivity|exact Q]|eapply numeral_unreserved; exact P]|]. apply IH. intros q J. apply C. right. exact J.
Qed.
Lemma pairs_plain kvs : Forall (fun kv => plain (fst kv) /\ plain (snd kv)) kvs -> pairs_of (map (fun kv => fst kv +++ "=" +++ snd kv) kvs) = Some kvs.
Proof.
  induction 1 as [|[k v] l [K V] F IH]; [reflexivity|]. cbn [map pairs_of fst snd] in *. rewrite (pair_plain k v K V), IH.
  destruct (k +++ "=" +++ v =?s "") eqn:E; [|reflexivity]. apply seqb_eq in E. destruct k; discriminate.
Qed.
Lemma address_read h c a u rt : method_shown sch rt h c -> carried sch h a -> no_char "#" (cm_route c) -> no_char "%" (cm_route c) -> address c a u ->
  exists kvs, sent a (h_inputs h) kvs /\ read_address u = Some (cm_route c, kvs).
Proof.
  intros (x & _ & _ & _ & [NQ _] & Q & _) [C _] N1 N2 (l & A & ->). destruct (arguments_sent a _ _ _ Q A C) as (kvs & S & ->). exists kvs. split; [exact S|].
  assert (P := sent_plain _ _ _ S (fun p I Z => proj2 (proj1 (C p I Z)))). set (l := map (fun kv => fst kv +++ "=" +++ snd kv) kvs).
  assert (NC : forall d, unreserved d = false -> d <> "="%char -> Forall (no_char d) l).
  { intros d U NE. unfold l. clear -P U NE. induction P as [|[k v] kvs [K V] F IH]; [constructor|]. cbn [map fst snd] in *. constructor; [|exact IH].
    apply no_char_app. split; [apply plain_no_char; assumption|]. apply no_char_cons. split; [congruence|apply plain_no_char; assumption]. }
  unfold read_address. assert (PP := pairs_plain _ P). fold l in PP. destruct l as [|s l0] eqn:EL.
  - rewrite append_nil_r, (cut_none "#" _ N1). cbn [fst]. rewrite (cut_none "?" _ NQ), (decode_plain false _ N2) by discriminate. cbn [pieces pairs_of] in *. exact (f_equal (fun o => match o with Some l => Some (cm_route c, l) | None => None end) PP).
  - rewrite <- EL in *. change ("?" +++ String.concat "&" l) with (String "?" (String.concat "&" l)).
    rewrite (cut_none "#").
    2:{ apply no_char_app. split; [exact N1|]. apply no_char_cons. split; [discriminate|]. apply concat_no_char; [discriminate|]. apply NC; [reflexivity|discriminate]. }
    cbn [fst]. rewrite (cut_here "?" _ _ NQ), (decode_plain false _ N2) by discriminate.
    rewrite pieces_concat; [rewrite PP; reflexivity|rewrite EL; discriminate|]. apply NC; [reflexivity|discriminate].
Qed.
Lemma sent_keys a ins kvs k : sent a ins kvs -> In k (map fst kvs) -> exists p, In p ins /\ ps_query p = k /\ ps_query p <> "".
Proof.
  induction 1 as [|p ps l Q S IH|p ps l f Q L Z S IH|p ps l f s Q L E N P S IH|p ps l f z s Q L E N P S IH]; intros I; cbn in I; try contradiction.
  - destruct (IH I) as (q & J & X). exists q. cbn. auto.
  - destruct (IH I) as (q & J & X). exists q. cbn. auto.
  - destruct I as [<- |I]; [exists p; cbn; auto|]. destruct (IH I) as (q & J & X). exists q. cbn. auto.
  - destruct I as [<- |I]; [exists p; cbn; auto|]. destruct (IH I) as (q & J & X). exists q. cbn. auto.
Qed.
Definition keys (ps : list paramspec) : list string := flat_map (fun p => if ps_query p =?s "" then [] else [ps_query p]) ps.
Lemma keys_in ps k : In k (keys ps) <-> exists p, In p ps /\ ps_query p = k /\ ps_query p <> "".
Proof.
  unfold keys. rewrite in_flat_map. split; intros (p & I & X); exists p; (split; [exact I|]); destruct (ps_query p =?s "") eqn:E.
  - destruct X.
  - apply seqb_neq in E. destruct X as [<- |[]]. auto.
  - apply seqb_eq in E. destruct X. congruence.
  - left. apply X.
Qed.
(** the text under a key *)
Lemma sent_got a ins kvs : sent a ins kvs -> NoDup (keys ins) -> forall p f, In p ins -> ps_query p <> "" -> large_first (fd_name (ps_field p)) f ->
  (zero_call (a f) /\ got kvs (ps_query p) "")
  \/ (exists s, a f = RText s /\ s <> "" /\ got kvs (ps_query p) s) \/ (exists z s, a f = RInt z /\ z <> 0%Z /\ numeral s z /\ got kvs (ps_query p) s).
Proof.
  intros S. assert (LF : forall p f f', large_first (fd_name (ps_field p)) f -> large_first (fd_name (ps_field p)) f' -> f = f')
    by (intros p f f' A B; apply large_first_iff in A; apply large_first_iff in B; congruence).
  assert (LATER : forall (k k' s v : string) l, k <> k' -> got l k v -> got ((k', s) :: l) k v).
  { intros k k' s v l N [(x & y & -> & G)|[G ->]]; [left; exists ((k', s) :: x), y; split; [reflexivity|]|right; split; [|reflexivity]]; cbn; intuition congruence. }
  induction S as [|p ps l Q S IH|p ps l f Q L Z S IH|p ps l f s Q L E N P S IH|p ps l f z s Q L E N P S IH]; intros ND q g I QQ LG; [destruct I| | | |].
  - unfold keys in ND. cbn in ND. rewrite Q in ND. cbn in ND. destruct I as [<- |I]; [congruence|]. exact (IH ND q g I QQ LG).
  - unfold keys in ND. cbn in ND. rewrite (proj2 (seqb_neq _ _) Q) in ND. cbn in ND. inversion ND as [|? ? N1 N2]; subst. destruct I as [<- |I]; [|exact (IH N2 q g I QQ LG)].
    left. rewrite (LF _ _ _ LG L). split; [exact Z|]. right. split; [|reflexivity]. intros J. apply N1. apply keys_in. destruct (sent_keys _ _ _ _ S J) as (r & X). exists r. exact X.
  - unfold keys in ND. cbn in ND. rewrite (proj2 (seqb_neq _ _) Q) in ND. cbn in ND. inversion ND as [|? ? N1 N2]; subst. destruct I as [<- |I].
    + right. left. exists s. rewrite (LF _ _ _ LG L). split; [exact E|]. split; [exact N|]. left. exists [], l. split; [reflexivity|intros []].
    + assert (NE : ps_query q <> ps_query p) by (intros X; apply N1; apply keys_in; exists q; auto).
      destruct (IH N2 q g I QQ LG) as [[A B]|[(s' & A & B & D)|(z' & s' & A & B & C & D)]]; [left|right; left; exists s'|right; right; exists z', s']; auto.
  - unfold keys in ND. cbn in ND. rewrite (proj2 (seqb_neq _ _) Q) in ND. cbn in ND. inversion ND as [|? ? N1 N2]; subst. destruct I as [<- |I].
    + right. right. exists z, s. rewrite (LF _ _ _ LG L). split; [exact E|]. split; [exact N|]. split; [exact P|]. left. exists [], l. split; [reflexivity|intros []].
    + assert (NE : ps_query q <> ps_query p) by (intros X; apply N1; apply keys_in; exists q; auto).
      destruct (IH N2 q g I QQ LG) as [[A B]|[(s' & A & B & D)|(z' & s' & A & B & C & D)]]; [left|right; left; exists s'|right; right; exists z', s']; auto.
Qed.
Context (sprint : value -> string) (instant : string -> timestamp -> Prop) (stamp : timestamp -> string -> Prop) (rt : bool)
  (instant_fun : forall s t t', instant s t -> instant s t' -> t = t').
Lemma query_carried h c a u : method_shown sch rt h c -> carried sch h a -> no_char "#" (cm_route c) -> no_char "%" (cm_route c) -> address c a u ->
  exists kvs, read_address u = Some (cm_route c, kvs)
  /\ forall rq p i f, rq_query rq = kvs -> In p (h_inputs h) -> ps_query p <> "" -> input_shown sprint instant stamp sch rt p i ->
       large_first (fd_name (ps_field p)) f -> (zero_call (a f) -> declared_default sch (ps_field p) (a f) /\ forall s, fd_default (ps_field p) <> VPStr s) ->
       forall v, receives instant sch rq p i v <-> v = a f.
Proof.
  intros M C N1 N2 A. destruct (address_read h c a u rt M C N1 N2 A) as (kvs & S & R). exists kvs. split; [exact R|].
  intros rq p i f E I Q IS L Z v. destruct C as [C ND]. destruct (C p I Q) as [[SK PK] CV]. specialize (CV f L).
  destruct (sent_got a _ _ S ND p f I Q L) as [[Z0 G]|[(s & EA & NE & G)|(z & s & EA & NE & NU & G)]].
  - destruct (Z Z0) as [DD NP]. eapply defaults_received; try eassumption. apply pl_query; [exact Q|rewrite E; exact G].
  - eapply (values_received sprint instant stamp sch m Hm rt instant_fun rq p i s); [exact IS|apply pl_query; [exact Q|rewrite E; exact G]|rewrite EA; intros [t X]; discriminate|].
    rewrite EA in CV |- *. inversion CV as [ts t D T P E1|]; subst. eapply sd_text; [exact NE|exact D|]. rewrite T. cbn. auto.
  - eapply (values_received sprint instant stamp sch m Hm rt instant_fun rq p i s); [exact IS|apply pl_query; [exact Q|rewrite E; exact G]|rewrite EA; intros [t X]; discriminate|].
    rewrite EA in CV |- *. inversion CV as [|ts b z' D W B E1]; subst. eapply sd_int; [exact D|exact W|apply numeral_int; exact NU|exact B].
Qed.
End CALL.

(** the variables of a path that is sent as it is declared *)
Lemma segments_path l : segments_text l = path_of (map segment_text l).
Proof. induction l as [|s l IH]; [reflexivity|]. unfold segments_text, path_of, each in *. cbn [map fold_right]. rewrite IH. reflexivity. Qed.
Lemma segment_plain s : segment_ok s -> no_char "/" (segment_text s).
Proof.
  destruct s as [a|n]; cbn [segment_ok segment_text]; [tauto|]. intros (_ & N & _). change ("{" +++ n +++ "}") with (String "{" (n +++ "}")). apply no_char_cons. split; [discriminate|].
  apply no_char_app. split; [exact N|]. apply no_char_smem. reflexivity.
Qed.
Lemma own_text_matches l : Forall segment_ok l -> Forall2 matches l (map segment_text l).
Proof.
  induction 1 as [|s l S F IH]; constructor; [|exact IH]. destruct s as [a|n]; [reflexivity|]. split; [discriminate|]. exact (segment_plain (Var n) S).
Qed.
Lemma unfilled l vs : Forall segment_ok l -> NoDup (vars_of l) -> accepted (segments_text l) (segments_text l) vs ->
  forall n, In n (vars_of l) -> got vs n ("{" +++ n +++ "}").
Proof.
  intros S N [F _] n I. apply (fits_segments l S) in F as (ts & M & E & ->). rewrite segments_path in E.
  assert (ts = map segment_text l) as ->.
  { symmetry. apply path_of_inj; [|exact (matches_plain l ts S M)|exact E]. clear -S. induction S as [|s l H S IH]; constructor; [apply segment_plain; exact H|exact IH]. }
  clear -N I. induction l as [|[a|v] l IH]; cbn in *; [destruct I|exact (IH N I)|]. inversion N as [|? ? N1 N2]; subst. destruct I as [<- |I].
  - left. eexists [], _. split; [reflexivity|intros []].
  - destruct (IH N2 I) as [(x & y & E & G)|[_ E]]; [|discriminate]. left. exists ((v, "{" +++ v +++ "}") :: x), y. rewrite E. split; [reflexivity|]. cbn. intros [X|X]; [subst; contradiction|contradiction].
Qed.
Lemma unfilled_accepted l : Forall segment_ok l -> NoDup (vars_of l) -> exists vs, accepted (segments_text l) (segments_text l) vs.
Proof. intros S N. apply (accepted_segments l S N). exists (map segment_text l). split; [apply own_text_matches; exact S|apply segments_path]. Qed.
