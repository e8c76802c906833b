(** Names in the generated Go file: which uses have a type, what is declared, what is declared twice. *)
From Verif Require Import GoStr Outcome Value Schema Scalars Model Misc Generator Golang GoModel SpecTime SpecMisc SpecModel SpecPV SpecTrace SpecGo
  ModelFacts PVFacts TraceFacts GoModelFacts GoText.
From Coq Require Import Permutation.

Section NAMES.
Context (sch : schema) (m : model) (Hm : new_model sch = Ok m).
Lemma plain_go rt ts n : plain_part sch n -> exists t, go_use sch rt ts n t.
Proof.
  intros [(td & D) C]. destruct (in_dec string_dec n (map fst go_basic)) as [I|NB].
  - apply in_map_iff in I as ([a t] & <- & I). exists t. now constructor.
  - destruct (in_dec string_dec n go_library) as [I|NL]; [eexists; now apply gu_library|].
    assert (P : plain_use n) by (split; [exact NB|split; [exact NL|split; intros ->; apply C; [now left|now right]]]).
    destruct (string_dec (ts_type td) "Struct") as [T|T]; eexists; [eapply gu_struct|eapply gu_other]; eassumption.
Qed.
Lemma builtin_known n : In n builtin_names -> known sch n.
Proof. intros I. exists (ts_of n), (mkTD n "" [] (ts_of n)). split; [left; split; [exact I|reflexivity]|reflexivity]. Qed.
Lemma go_known rt ts n t : go_use sch rt ts n t -> known sch n.
Proof.
  intros U. destruct U as [ts n t I|ts n I|ts ti t D U|ts tk k ti t K U D V|ts n td P D T|ts n td P D T].
  - apply builtin_known. cbn in I. repeat (destruct I as [I|I]; [injection I as <- _; cbn; tauto|]). destruct I.
  - apply builtin_known. cbn in I. repeat (destruct I as [<- |I]; [cbn; tauto|]). destruct I.
  - apply builtin_known. cbn. tauto.
  - apply builtin_known. cbn. tauto.
  - now exists td.
  - now exists td.
Qed.
Lemma container_no rt n ts t : ~ known sch "" -> container n -> defines sch n ts -> ~ go_use sch rt ts n t.
Proof.
  intros NE C D U. destruct (container_def sch m Hm n ts C D) as [E1 E2].
  destruct U as [ts n t I|ts n I|ts ti t Di U|ts tk k ti t K U Di V|ts n td P Dn T|ts n td P Dn T].
  - destruct C as [-> | ->]; cbn in I; intuition discriminate.
  - destruct C as [-> | ->]; cbn in I; intuition discriminate.
  - rewrite E1 in Di. apply NE. now exists ti.
  - rewrite E1 in Di. apply NE. now exists ti.
  - destruct P as (_ & _ & A & B). destruct C; contradiction.
  - destruct P as (_ & _ & A & B). destruct C; contradiction.
Qed.
Theorem typed_iff ts n : ~ known sch "" -> ~ no_go_type sch ts n <-> go_typed sch ts n.
Proof.
  intros NE. assert (Q : forall rt x tx t, defines sch x tx -> go_use sch rt tx x t -> plain_part sch x).
  { intros rt x tx t D U. split; [now exists tx|]. intros C. exact (container_no rt x tx t NE C D U). }
  split.
  - intros N. destruct (native_name_total sch m Hm true ts n (mkGo [] false false)) as [E|(s & st' & E)].
    { destruct N. apply (no_use sch true). exact (proj1 (native_name_panic sch m Hm true ts n _) E). }
    apply (native_name_spec sch m Hm) in E as (t & U & _). pose proof (go_known _ _ _ _ U) as Kn. revert Kn.
    destruct U as [ts n t I|ts n I|ts ti t Di U|ts tk k ti t K U Di V|ts n td P Dn T|ts n td P Dn T]; intros Kn.
    + left. split; [exact Kn|]. intros [-> | ->]; cbn in I; intuition discriminate.
    + left. split; [exact Kn|]. intros [-> | ->]; cbn in I; intuition discriminate.
    + right. left. split; [reflexivity|]. eapply Q; eassumption.
    + right. right. split; [reflexivity|]. split; eapply Q; eassumption.
    + left. split; [exact Kn|]. destruct P as (_ & _ & A & B). intros [C|C]; contradiction.
    + left. split; [exact Kn|]. destruct P as (_ & _ & A & B). intros [C|C]; contradiction.
  - intros G N. destruct G as [P|[[-> P]|[-> [PK P]]]].
    + destruct (plain_go true ts n P) as [t U]. exact (N _ _ U).
    + pose proof P as [(ti & D) _]. destruct (plain_go true ti _ P) as [t U]. exact (N _ _ (gu_array sch true ts ti t D U)).
    + pose proof P as [(ti & D) _]. pose proof PK as [(tk & K) _]. destruct (plain_go true ti _ P) as [t U]. destruct (plain_go true tk _ PK) as [k V].
      exact (N _ _ (gu_map sch true ts tk k ti t K V D U)).
Qed.

(** references *)
Lemma nodup_head {A} (l l' : list A) : NoDup (l ++ l') -> NoDup l.
Proof.
  induction l as [|x l IH]; cbn; [constructor|]. intros N. inversion N as [|? ? N1 N2]; subst. constructor; [|exact (IH N2)].
  intros I. apply N1. apply in_or_app. now left.
Qed.
Lemma forall2_in {A B} (P : A -> B -> Prop) l ls x : Forall2 P l ls -> In x ls -> exists a, In a l /\ P a x.
Proof. induction 1 as [|a b l ls H F IH]; [intros []|]. intros [<- |I]; [exists a; split; [now left|exact H]|]. destruct (IH I) as (c & J & Q). exists c. split; [now right|exact Q]. Qed.
Lemma type_shown_note rt td ds : type_shown sch rt td ds -> In (td_name td) (flat_map declared ds).
Proof.
  intros T. destruct T; cbn [flat_map declared app]; try (now left).
  right. apply in_or_app. left. apply in_or_app. right. now left.
Qed.
Lemma declared_type rt acts types rest n td : Forall2 (type_shown sch rt) (sc_types sch) types -> In td (sc_types sch) -> td_name td = n ->
  In n (flat_map declared (acts ++ concat types ++ rest)).
Proof.
  intros F I <-. rewrite !flat_map_app. apply in_or_app. right. apply in_or_app. left.
  induction F as [|td' ds tds dss T F IH]; [destruct I|]. cbn [concat]. rewrite flat_map_app. apply in_or_app.
  destruct I as [<- |I]; [left; eapply type_shown_note; exact T|right; now apply IH].
Qed.
Lemma use_names rt ts n t x : go_use sch rt ts n t -> type_mentions t (GNamed x) ->
  (x = "Decimal" \/ x = "Timestamp") \/ In x undeclared_names \/ exists td, In td (sc_types sch) /\ td_name td = x.
Proof.
  assert (Q : forall n td, plain_use n -> defines sch n td -> In n undeclared_names \/ exists td, In td (sc_types sch) /\ td_name td = n).
  { intros n0 td P (td' & [[I _]|[I E]] & _); [left|right; eauto]. destruct P as (P1 & P2 & PA & PM).
    cbn in I, P1, P2 |- *. intuition. }
  induction 1 as [ts n t I|ts n I|ts ti t D U IH|ts tk k ti t K U IHk D V IH|ts n td P D T|ts n td P D T]; intros M.
  - cbn in I. repeat (destruct I as [I|I]; [injection I as <- <-; cbn in M; intuition discriminate|]). destruct I.
  - cbn in M. destruct rt; [cbn in M; intuition discriminate|]. destruct M as [M|[M|[]]]; [discriminate|]. injection M as <-.
    cbn in I. destruct I as [<- |[<- |[<- |[]]]]; [left; auto|left; auto|right; left; cbn; tauto].
  - cbn in M. destruct M as [M|M]; [discriminate|auto].
  - cbn in M. destruct M as [M|[M|M]]; [discriminate|auto|auto].
  - cbn in M. destruct M as [M|[M|[]]]; [discriminate|]. injection M as <-. right. eapply Q; eassumption.
  - cbn in M. destruct M as [M|[]]. injection M as <-. right. eapply Q; eassumption.
Qed.
Lemma fields_names rt (fs : list fielddef) gs g x : fields_shown sch rt fs gs -> In g gs -> type_mentions (gf_type g) (GNamed x) ->
  (x = "Decimal" \/ x = "Timestamp") \/ In x undeclared_names \/ exists td, In td (sc_types sch) /\ td_name td = x.
Proof.
  intros F I M. induction F as [|f g' fs gs (_ & _ & U & _) F IH]; [destruct I|]. destruct I as [<- |I]; [|exact (IH I)]. eapply use_names; eassumption.
Qed.
Lemma variants_names rt (fs : list variantdef) gs g x : variants_shown sch rt fs gs -> In g gs -> type_mentions (gf_type g) (GNamed x) ->
  (x = "Decimal" \/ x = "Timestamp") \/ In x undeclared_names \/ exists td, In td (sc_types sch) /\ td_name td = x.
Proof.
  intros F I M. induction F as [|f g' fs gs (_ & _ & U & _) F IH]; [destruct I|]. destruct I as [<- |I]; [|exact (IH I)]. eapply use_names; eassumption.
Qed.
Lemma error_mentions n es d x : error_method sch n es -> In d es -> ~ decl_mentions d x.
Proof. intros [[_ ->]|[_ ->]] I; [destruct I as [<- |[]]; intros []|destruct I]. Qed.
Lemma type_names rt td ds d x : type_shown sch rt td ds -> In d ds -> decl_mentions d (GNamed x) ->
  (x = "Decimal" \/ x = "Timestamp") \/ In x undeclared_names \/ exists td, In td (sc_types sch) /\ td_name td = x.
Proof.
  intros T I M. destruct T as [gs es K F E|tags gs es K L F E|l K F|K|K|K|t K U|k t K U V|t N1 N2 K].
  - destruct I as [<- |[<- |I]]; [destruct M| |destruct (error_mentions _ _ _ _ E I M)]. destruct M as (g & Ig & M). eapply fields_names; eassumption.
  - destruct I as [<- |[<- |I]]; [destruct M| |destruct (error_mentions _ _ _ _ E I M)]. destruct M as (g & Ig & M). eapply variants_names; eassumption.
  - destruct I as [<- |[<- |[]]]; destruct M.
  - destruct I as [<- |[<- |[]]]; [destruct M|]. cbn in M. intuition discriminate.
  - destruct I as [<- |[<- |[]]]; [destruct M|]. cbn in M. intuition discriminate.
  - destruct I as [<- |[<- |[]]]; [destruct M|]. cbn in M. destruct M as [M|[]]. injection M as <-. left. now left.
  - destruct I as [<- |[<- |[]]]; [destruct M|]. cbn in M. destruct M as [M|M]; [discriminate|]. eapply use_names; eassumption.
  - destruct I as [<- |[<- |[]]]; [destruct M|]. cbn in M. destruct M as [M|[M|M]]; [discriminate|eapply use_names; [exact U|exact M]|eapply use_names; [exact V|exact M]].
  - destruct I as [<- |[<- |[]]]; destruct M.
Qed.
Theorem file_names rt service ds x : file_shown sch rt service ds -> (exists d, In d ds /\ decl_mentions d (GNamed x)) ->
  In x undeclared_names \/ In x (flat_map declared ds).
Proof.
  intros (ms & acts & types & helpers & -> & FM & FA & FT & HH & _ & _) (d & I & M).
  assert (X : exists e, In e (concat acts ++ concat types) /\ decl_mentions e (GNamed x)).
  { destruct I as [<- |I]; [destruct M|]. rewrite app_assoc in I. apply in_app_iff in I as [I|I]; [eauto|]. apply HH in I as [[-> _]|[-> _]]; destruct M. }
  assert (Y : (x = "Decimal" \/ x = "Timestamp") \/ In x undeclared_names \/ exists td, In td (sc_types sch) /\ td_name td = x).
  { destruct X as (e & Ie & Me). apply in_app_iff in Ie as [Ie|Ie]; apply in_concat in Ie as (l & Il & Ie).
    - clear -FA Il Ie Me. induction FA as [|h l' hs ls A FA IH]; [destruct Il|]. destruct Il as [<- |Il]; [|exact (IH Il)].
      destruct A as [n y qs ps NE L Ex FQ FP]. destruct Ie as [<- |[<- |[]]]; destruct Me as (g & Ig & Me); eapply fields_names; [exact FQ|exact Ig|exact Me|exact FP|exact Ig|exact Me].
    - destruct (forall2_in _ _ _ _ FT Il) as (td & _ & A). eapply type_names; eassumption. }
  destruct Y as [Y|[Y|(td & It & E)]]; [|left; exact Y|].
  - right. cbn [flat_map]. apply in_or_app. right. rewrite !flat_map_app. apply in_or_app. right. apply in_or_app. right. apply in_flat_map.
    destruct Y as [-> | ->]; [exists GdDecimal|exists GdTimestamp]; (split; [apply HH|cbn; tauto]); [right|left]; auto.
  - right. cbn [flat_map]. apply in_or_app. right. eapply declared_type; eassumption.
Qed.

(** names declared twice *)
Lemma taken_types rt tds types : Forall2 (type_shown sch rt) tds types -> (forall td, In td tds -> ts_type (td_spec td) <> "Union") ->
  flat_map declared (concat types) = flat_map taken tds.
Proof.
  intros F NU. induction F as [|td ds tds dss T F IH]; [reflexivity|]. cbn [concat flat_map]. rewrite flat_map_app, IH by (intros x I; apply NU; now right). f_equal.
  assert (NUt := NU td (or_introl eq_refl)). clear -T NUt. unfold taken.
  assert (Er : forall n es, error_method sch n es -> flat_map declared es = []) by (intros n es [[_ ->]|[_ ->]]; reflexivity).
  destruct T as [gs es K F E|tags gs es K L F E|l K F|K|K|K|t K U|k t K U V|t N1 N2 K]; try (rewrite K; cbn; reflexivity).
  - rewrite K. cbn. rewrite (Er _ _ E). reflexivity.
  - contradiction.
  - rewrite K. cbn. rewrite app_nil_r. do 2 f_equal. clear -F. induction F as [|e p es ps [H _] F IH]; cbn; congruence.
  - destruct (in_dec string_dec _ _) as [_|N]; [reflexivity|]. destruct N. cbn in K.
    repeat (destruct K as [K|K]; [injection K as K _; rewrite <- K in *; first [congruence|cbn; tauto]|]). destruct K.
Qed.
Lemma taken_actions rt hs ms acts : Forall2 (fun h n => h_name h <> "" /\ large_first (h_name h) n) hs ms -> Forall2 (action_types sch rt) hs acts ->
  flat_map declared (concat acts) = flat_map (fun n => [n +++ "Request"; n +++ "Response"]) ms.
Proof.
  intros FM. revert acts. induction FM as [|h n hs ms [NE L] FM IH]; intros acts FA; inversion FA as [|? l ? ls A F]; subst; [reflexivity|].
  cbn [concat flat_map]. rewrite flat_map_app, (IH _ F). f_equal. destruct A as [n' x qs ps NE' L' Ex FQ FP].
  apply large_first_iff in L, L'. assert (n' = n) as -> by congruence. reflexivity.
Qed.
Theorem declared_once rt service ds : file_shown sch rt service ds -> (forall td, In td (sc_types sch) -> ts_type (td_spec td) <> "Union") ->
  (forall ms, Forall2 (fun h n => large_first (h_name h) n) (sc_http sch) ms ->
     NoDup (service :: flat_map (fun n => [n +++ "Request"; n +++ "Response"]) ms ++ flat_map taken (sc_types sch) ++ timestamp_names ++ decimal_names)) ->
  NoDup (flat_map declared ds).
Proof.
  intros (ms & acts & types & helpers & -> & FM & FA & FT & HH & ND & HD) NU H.
  specialize (H ms). cbn [flat_map]. rewrite !flat_map_app, (taken_types _ _ _ FT NU), (taken_actions _ _ _ _ FM FA). cbn [declared app].
  assert (FM' : Forall2 (fun h n => large_first (h_name h) n) (sc_http sch) ms) by (clear -FM; induction FM as [|? ? ? ? [_ ?]]; constructor; assumption).
  specialize (H FM'). set (a := flat_map (fun n => [n +++ "Request"; n +++ "Response"]) ms) in *. set (b := flat_map taken (sc_types sch)) in *.
  assert (Hh : helpers = [] \/ helpers = [GdTimestamp] \/ helpers = [GdDecimal] \/ helpers = [GdTimestamp; GdDecimal]).
  { assert (A : forall d, In d helpers -> d = GdTimestamp \/ d = GdDecimal) by (intros d I; apply HH in I; tauto). clear HH.
    destruct helpers as [|x l]; [auto|]. destruct (A x (or_introl eq_refl)) as [-> | ->].
    - destruct l as [|y l]; [auto|]. destruct (A y (or_intror (or_introl eq_refl))) as [-> | ->].
      + inversion ND as [|? ? N _]; subst. destruct N. now left.
      + rewrite (HD [GdTimestamp] l eq_refl). auto.
    - rewrite (HD [] l eq_refl). auto. }
  assert (E : exists c d, Permutation (service :: a ++ b ++ timestamp_names ++ decimal_names) ((service :: a ++ b ++ c) ++ d) /\ flat_map declared helpers = c).
  { destruct Hh as [-> |[-> |[-> | ->]]].
    - exists [], (timestamp_names ++ decimal_names). split; [|reflexivity]. cbn [app]. rewrite app_nil_r, <- app_assoc. reflexivity.
    - exists timestamp_names, decimal_names. split; [|reflexivity]. cbn [app]. rewrite <- !app_assoc. reflexivity.
    - exists decimal_names, timestamp_names. split; [|reflexivity]. cbn [app]. rewrite <- !app_assoc. apply perm_skip, Permutation_app_head, Permutation_app_head, Permutation_app_comm.
    - exists (timestamp_names ++ decimal_names), []. split; [|reflexivity]. rewrite app_nil_r. reflexivity. }
  destruct E as (c & d & P & <-). apply (Permutation_NoDup P) in H. clear -H. exact (nodup_head _ _ H).
Qed.
(** fields of the same name *)
Definition apart (names : list string) : Prop := forall a n b n' c, names = a ++ n :: b ++ n' :: c -> ~ same_large n n'.
Lemma apart_nodup names gs : Forall2 (fun n (g : gofield) => large_first n (gf_name g)) names gs -> NoDup (map gf_name gs) <-> apart names.
Proof.
  induction 1 as [|n g names gs L F IH]; cbn [map].
  - split; [|constructor]. intros _ a n b n' c E. destruct a; discriminate.
  - assert (X : In (gf_name g) (map gf_name gs) <-> exists n', In n' names /\ same_large n n').
    { clear -L F. induction F as [|n' g' names gs L' F IH]; cbn [map In].
      - split; [intros []|intros (n' & [] & _)].
      - rewrite IH. split.
        + intros [E|(x & I & S)]; [exists n'; split; [now left|]; exists (gf_name g); split; [exact L|rewrite <- E; exact L']|eauto].
        + intros (x & [<- |I] & S); [left|right; eauto]. destruct S as (s & S1 & S2). apply large_first_iff in L, L', S1, S2. congruence. }
    split.
    + intros N a x b y c E S. inversion N as [|? ? N1 N2]; subst. destruct a as [|z a]; cbn in E.
      * injection E as <- E. apply N1. apply X. exists y. split; [rewrite E; apply in_or_app; right; now left|exact S].
      * injection E as <- E. apply IH in N2. exact (N2 a x b y c E S).
    + intros A. constructor.
      * intros I. apply X in I as (y & Iy & S). apply in_split in Iy as (b & c & E). exact (A [] n b y c ltac:(cbn; now rewrite E) S).
      * apply IH. intros a x b y c E. apply (A (n :: a) x b y c). cbn. now rewrite E.
Qed.
Lemma fields_large rt (fs : list fielddef) gs : fields_shown sch rt fs gs -> Forall2 (fun n (g : gofield) => large_first n (gf_name g)) (map (fun f : fielddef => fd_name f) fs) gs.
Proof. induction 1 as [|f g fs gs (_ & L & _) F IH]; cbn [map]; constructor; assumption. Qed.
End NAMES.
