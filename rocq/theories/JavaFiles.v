(** The files of a model. *)
From Verif Require Import GoStr Outcome Value Schema Scalars Model Misc Generator Golang GoModel GoServer OpenApi Java JavaModel
  SpecTime SpecMisc SpecModel SpecPV SpecTrace SpecGo SpecGen SpecJava ModelFacts PVFacts TraceFacts GenFacts GoModelFacts GoText JavaFacts JavaText JavaAsks.
From Coq Require Import Lia Permutation.

(** ** The state of the generator *)
Definition flags (a b : jstate) (es : list jevent) : Prop :=
  (js_err b = true <-> js_err a = true \/ In JError es) /\ (js_timestamp b = true <-> js_timestamp a = true \/ In JTimestamp es)
  /\ (js_instant b = true <-> js_instant a = true \/ In JInstant es) /\ (js_util b = true <-> js_util a = true \/ In JUtil es)
  /\ (forall r, In r (js_imports b) <-> In r (js_imports a) \/ In (JImport r) es) /\ (NoDup (js_imports a) -> NoDup (js_imports b)).
Lemma flags_none a : flags a a [].
Proof. unfold flags. cbn. intuition. Qed.
Lemma flags_app a b c es es' : flags a b es -> flags b c es' -> flags a c (es ++ es').
Proof.
  intros (A1 & A2 & A3 & A4 & A5 & A6) (B1 & B2 & B3 & B4 & B5 & B6). unfold flags. rewrite B1, A1, B2, A2, B3, A3, B4, A4.
  rewrite !in_app_iff. repeat split; try tauto; intros; rewrite ?B5, ?A5, ?in_app_iff in *; tauto.
Qed.
Lemma happen_spec st e : js_files (happen st e) = js_files st /\ flags st (happen st e) [e].
Proof.
  unfold flags. split; [destruct e; reflexivity|]. split; [destruct e; cbn; intuition congruence|]. split; [destruct e; cbn; intuition congruence|].
  split; [destruct e; cbn; intuition congruence|]. split; [destruct e; cbn; intuition congruence|]. split.
  - intros r. destruct e as [r'| | | |]; cbn [happen js_imports]; [rewrite GenFacts.add_import_In; cbn; intuition congruence| | | |]; cbn; intuition congruence.
  - destruct e as [r'| | | |]; cbn [happen js_imports]; [apply GenFacts.add_import_NoDup| | | |]; auto.
Qed.
Lemma happens_spec es : forall st, js_files (happens st es) = js_files st /\ flags st (happens st es) es.
Proof.
  induction es as [|e es IH]; intros st; [split; [reflexivity|apply flags_none]|]. destruct (happen_spec st e) as [A B]. destruct (IH (happen st e)) as [C D].
  change (happens st (e :: es)) with (happens (happen st e) es). split; [congruence|]. exact (flags_app _ _ _ [e] es B D).
Qed.
(** [es] has happened and the files [fs] are new *)
Definition goes (a b : jstate) (es : list jevent) (fs : list jfile) : Prop := flags a b es /\ js_files b = js_files a ++ fs.
Lemma goes_none a : goes a a [] [].
Proof. split; [apply flags_none|symmetry; apply app_nil_r]. Qed.
Lemma goes_app a b c es es' fs fs' : goes a b es fs -> goes b c es' fs' -> goes a c (es ++ es') (fs ++ fs').
Proof. intros [A B] [C D]. split; [exact (flags_app _ _ _ _ _ A C)|]. now rewrite D, B, app_assoc. Qed.
Lemma goes_happens a es : goes a (happens a es) es [].
Proof. destruct (happens_spec es a) as [A B]. split; [exact B|]. now rewrite app_nil_r. Qed.
Lemma goes_err a b es fs : goes a b es fs -> js_err b = false -> js_err a = false /\ ~ In JError es.
Proof.
  intros [(E & _) _] H. split; [destruct (js_err a) eqn:Ea; [|reflexivity]|intros I]; (assert (X : js_err b = true) by (apply E; auto)); congruence.
Qed.

(** the generator has been asked for [B]: [b] counts the flag NeedInstant too *)
Definition told (st : jstate) (B : request -> Prop) : Prop :=
  NoDup (js_imports st) /\ (forall p, In p (js_imports st) <-> B (Wants p)) /\ (js_timestamp st = true <-> B Stamp) /\ (js_util st = true <-> B Helper)
  /\ (js_instant st = true -> js_util st = true).
Lemma told_iff st (B C : request -> Prop) : (forall q, B q <-> C q) -> told st B -> told st C.
Proof. intros H (N & I & T & U & J). unfold told. rewrite <- !H. repeat split; auto; intros X; try (apply H, I, X); try (apply I, H, X); tauto. Qed.
Lemma told_goes a b es fs B Q : goes a b es fs -> told a B -> (forall k q, gives_with k es q <-> Q q) -> told b (both B Q).
Proof.
  intros [(_ & T & In' & U & Im & Nd) _] (N & I & St & He & J) G.
  assert (G1 : forall p, In (JImport p) es <-> Q (Wants p)).
  { intros p. rewrite <- (G false). split; [intros X; exists (JImport p); auto|]. intros (e & X & E). destruct e; try discriminate E. injection E as ->. exact X. }
  assert (G2 : In JTimestamp es <-> Q Stamp).
  { rewrite <- (G false). split; [intros X; exists JTimestamp; auto|]. intros (e & X & E). destruct e; try discriminate E. exact X. }
  assert (G3 : In JUtil es <-> Q Helper).
  { rewrite <- (G false). split; [intros X; exists JUtil; auto|]. intros (e & X & E). destruct e; try discriminate E. exact X. }
  assert (G4 : In JInstant es -> In JUtil es).
  { intros X. apply G3, (G true). exists JInstant. auto. }
  unfold told, both. split; [auto|]. split; [intros p; rewrite Im, I, G1; tauto|]. split; [rewrite T, St, G2; tauto|]. split; [rewrite U, He, G3; tauto|].
  intros X. apply U. apply In' in X as [X|X]; auto.
Qed.
Lemma told_quiet a b fs B : goes a b [] fs -> told a B -> told b B.
Proof.
  intros G T. apply (told_iff _ (both B (fun _ => False))); [intros q; unfold both; tauto|]. apply (told_goes _ _ _ _ _ _ G T). intros k q. split; [intros (e & [] & _)|intros []].
Qed.

Lemma insert_perm s l : Permutation (insert_str s l) (s :: l).
Proof.
  induction l as [|x l IH]; [reflexivity|]. cbn [insert_str]. destruct (s <=? x)%string; [reflexivity|].
  rewrite IH. apply perm_swap.
Qed.
Lemma sort_perm l : Permutation (sort_strings l) l.
Proof. induction l as [|x l IH]; [reflexivity|]. cbn [sort_strings fold_right] in *. rewrite insert_perm. now constructor. Qed.

Section FILES.
Context (dec_text : decimal -> string) (sch : schema) (m : model) (Hm : new_model sch = Ok m) (o : jopts)
        (fuel : nat) (ord : list string -> list string) (Hord : forall l, Permutation (ord l) l).
Notation cpiece := (class_piece dec_text m o fuel ord).

Lemma write_goes name s pkg st : js_err st = false -> goes st (write_java o name s pkg st) [] [java_file o name s pkg].
Proof. intros E. unfold write_java. rewrite E. split; [|reflexivity]. unfold flags. cbn. rewrite E. intuition congruence. Qed.
Definition pojo_file (cls comment s : string) (imports : list string) : jfile :=
  java_file o cls (import_lines imports +++ (if comment =?s "" then "" else format_comment "" "// " comment 100 false) +++ s) (jo_model_package o).
(** a class: [s] is its text, [es] what happened, [imports] what the file imports *)
Definition pojo_made (ts : typespec) (cls comment : string) (exc : list string) (st st' : jstate) : Prop :=
  with_class ts /\ exists s es, cpiece ts cls exc = Some (Ok (s, es)) /\ goes st st' es [pojo_file cls comment s (js_imports st')]
    /\ (NoDup (js_imports st) -> ascending (js_imports st')).
Lemma sort_goes st : goes st (sort_imports st) [] [].
Proof.
  split; [|symmetry; apply app_nil_r]. unfold flags. cbn [sort_imports js_err js_timestamp js_instant js_util js_imports].
  split; [cbn; tauto|]. split; [cbn; tauto|]. split; [cbn; tauto|]. split; [cbn; tauto|]. split.
  - intros r. rewrite GenFacts.sort_In. cbn. tauto.
  - intros N. apply (Permutation_NoDup (Permutation_sym (sort_perm _))), N.
Qed.
Lemma pojo_spec ts cls comment exc st st' : create_pojo dec_text m o fuel ord ts cls comment exc st = Ok st' -> js_err st' = false ->
  js_err st = false /\ (~ with_class ts /\ st' = st \/ pojo_made ts cls comment exc st st').
Proof.
  intros H E. unfold create_pojo in H. destruct (js_err st) eqn:E0; [injection H as <-; congruence|]. split; [reflexivity|].
  destruct (cpiece ts cls exc) as [p|] eqn:P; [|injection H as <-; left; split; [exact (proj1 (class_piece_none _ _ _ _ _ _ _ _) P)|reflexivity]].
  right. apply rbind_Ok in H as ([s es] & -> & H). cbv zeta in H.
  assert (W : with_class ts).
  { unfold with_class. destruct (in_dec string_dec (ts_type ts) ["Struct"; "UnitValue"; "Enum"; "Union"]) as [I|I]; [exact I|].
    apply (class_piece_none dec_text m o fuel ord ts cls exc) in I. congruence. }
  split; [exact W|]. exists s, es. split; [exact P|]. pose proof (goes_happens st es) as G. destruct (js_err (happens st es)) eqn:E1; [injection H as <-; congruence|].
  set (st1 := happens st es) in *. set (st2 := match js_imports st1 with [] => st1 | _ => sort_imports st1 end) in *.
  assert (G2 : goes st1 st2 [] []) by (subst st2; destruct (js_imports st1); [apply goes_none|apply sort_goes]).
  assert (E2 : js_err st2 = false) by (subst st2; destruct (js_imports st1); exact E1).
  pose proof (write_goes cls (import_lines (js_imports st2) +++ (if comment =?s "" then "" else format_comment "" "// " comment 100 false) +++ s) (jo_model_package o) _ E2) as G3.
  injection H as <-. pose proof (goes_app _ _ _ _ _ _ _ G (goes_app _ _ _ _ _ _ _ G2 G3)) as G4. cbn [app] in G4. rewrite app_nil_r in G4.
  assert (Ei : js_imports (write_java o cls (import_lines (js_imports st2) +++ (if comment =?s "" then "" else format_comment "" "// " comment 100 false) +++ s) (jo_model_package o) st2) = js_imports st2)
    by (unfold write_java; rewrite E2; reflexivity).
  rewrite Ei. split; [exact G4|]. intros N. subst st2. destruct G as [(_ & _ & _ & _ & _ & N') _]. specialize (N' N). destruct (js_imports st1) eqn:Ej; [rewrite Ej; constructor|].
  unfold sort_imports. cbn [js_imports]. apply GenFacts.sort_ascending. rewrite Ej. exact N'.
Qed.

Notation out f := (jf_package f, jf_name f, jf_text f).
Notation the_class_file := (class_file java_comment go_quote dec_text sprint (jo_lombok o) (jo_immutable o) (jo_json o) (jo_header o) (jo_model_package o)).
Notation fshown B := (shown_file java_comment go_quote dec_text sprint (jo_lombok o) (jo_immutable o) (jo_json o) (jo_header o) (jo_model_package o) B).
Lemma text_java s pkg : jo_header o +++ (if pkg =?s "" then "" else "package " +++ pkg +++ ";" +++ nl) +++ s = java_text (jo_header o) pkg s.
Proof.
  unfold java_text, line. change newline with nl. destruct (string_dec pkg "") as [->|N]; [reflexivity|]. rewrite (proj2 (seqb_neq _ _) N), !append_assoc. reflexivity.
Qed.
Lemma import_text l : import_lines l = match l with [] => "" | _ => each (fun p => line ("import " +++ p +++ ";")) l +++ line "" end.
Proof.
  unfold import_lines. destruct l as [|x l]; [reflexivity|]. rewrite concat_each. f_equal. unfold each, line. change newline with nl.
  generalize (x :: l). intros k. induction k as [|y k IH]; [reflexivity|]. cbn [fold_right]. rewrite IH, !append_assoc. reflexivity.
Qed.
Lemma pojo_out cls comment imports c :
  out (pojo_file cls comment (class_text java_comment go_quote dec_text sprint (jo_lombok o) (jo_immutable o) (jo_json o) "" c) imports)
  = (jo_model_package o, cls, the_class_file imports comment c).
Proof.
  unfold pojo_file, java_file. cbn [jf_package jf_name jf_text]. rewrite text_java, import_text. fold (comment_text "" comment). rewrite note_text. reflexivity.
Qed.
Notation casks := (class_asks sch (jo_instants o) (jo_lombok o) (jo_immutable o) (jo_json o)).
Lemma pojo_class ts cls comment exc a b B : pojo_made ts cls comment exc a b -> js_err b = false -> told a B ->
  told b (both B (casks (str_mem cls exc) ts)) /\ exists f c, js_files b = js_files a ++ [f] /\ class_shown sch (jo_instants o) (jo_lombok o) (fun n => str_mem n exc) ts cls c
    /\ fshown (both B (casks (str_mem cls exc) ts)) cls comment c (out f).
Proof.
  intros (W & s & es & P & G & A) E T. destruct (goes_err _ _ _ _ G E) as [Ea Ne].
  destruct (class_piece_text dec_text sch m Hm o fuel ord Hord _ _ _ _ _ _ P eq_refl Ne) as (c & S & ->).
  assert (T' : told b (both B (casks (str_mem cls exc) ts))).
  { apply (told_goes _ _ _ _ _ _ G T). intros k q. exact (class_gives k dec_text sch m Hm o fuel ord Hord _ _ _ _ _ _ P eq_refl Ne q). }
  split; [exact T'|]. eexists _, c. split; [apply G|]. split; [exact S|]. exists (js_imports b). split; [exact (A (proj1 T))|]. split; [exact (proj1 (proj2 T'))|]. apply pojo_out.
Qed.
Definition typed_files : (string -> bool) -> (request -> Prop) -> list typedef -> list jout -> Prop :=
  types_files java_comment go_quote dec_text sprint (jo_lombok o) (jo_immutable o) (jo_json o) (jo_instants o) (jo_header o) (jo_model_package o) sch.
(** new files, and there was no error *)
Definition adds (a b : jstate) (fs : list jout) : Prop :=
  js_err a = false /\ exists l, js_files b = js_files a ++ l /\ fs = map (fun f => out f) l.
Lemma adds_none a : js_err a = false -> adds a a [].
Proof. intros E. repeat split; auto. exists []. split; [symmetry; apply app_nil_r|reflexivity]. Qed.
Lemma adds_app a b c fs gs : adds a b fs -> adds b c gs -> adds a c (fs ++ gs).
Proof.
  intros (A & l & C & ->) (D & k & F & ->). repeat split; auto. exists (l ++ k). split; [rewrite F, C, app_assoc; reflexivity|now rewrite map_app].
Qed.
Notation tasks exc := (type_asks (jo_lombok o) (jo_immutable o) (jo_json o) (jo_instants o) sch (fun n => str_mem n exc)).
Notation tsask exc := (types_ask (jo_lombok o) (jo_immutable o) (jo_json o) (jo_instants o) sch (fun n => str_mem n exc)).
Lemma type_asks_class exc td cls q : large_first (td_name td) cls -> tasks exc td q <-> casks (str_mem cls exc) (td_spec td) q.
Proof.
  intros L. split; [|intros J; exists cls; auto]. intros (n & L' & J). apply large_first_iff in L, L'. rewrite L in L'. now rewrite L'.
Qed.
Lemma types_spec exc l : forall st st' B, through (create_pojo_from_def dec_text m o fuel ord exc) l st = Ok st' -> js_err st' = false -> told st B ->
  told st' (both B (tsask exc l)) /\ exists fs, adds st st' fs /\ typed_files (fun n => str_mem n exc) B l fs.
Proof.
  induction l as [|td l IH]; intros st st' B H E T; cbn [through] in H.
  - injection H as <-. split.
    { apply (told_iff _ B); [|exact T]. intros q. unfold both. split; [auto|]. intros [J|(td & [] & _)]. exact J. }
    exists []. split; [now apply adds_none|constructor].
  - apply rbind_Ok in H as (st1 & H1 & H). unfold create_pojo_from_def in H1. apply rbind_Ok in H1 as (cls & C & H1). apply go_capitalize_spec in C as [Nn L].
    assert (E1 : js_err st1 = false).
    { destruct (js_err st1) eqn:E1; [|reflexivity]. exfalso. clear -E1 H E IH.
      assert (K : forall l st st', js_err st = true -> through (create_pojo_from_def dec_text m o fuel ord exc) l st = Ok st' -> js_err st' = true).
      { clear. induction l as [|td l IH]; intros st st' E H; cbn [through] in H; [injection H as <-; exact E|]. apply rbind_Ok in H as (st1 & H1 & H).
        unfold create_pojo_from_def in H1. apply rbind_Ok in H1 as (cls & C & H1). unfold create_pojo in H1. rewrite E in H1. injection H1 as <-. exact (IH _ _ E H). }
      rewrite (K _ _ _ E1 H) in E. discriminate. }
    assert (Q : forall q, both (both B (tasks exc td)) (tsask exc l) q <-> both B (tsask exc (td :: l)) q).
    { intros q. unfold both, types_ask. cbn [In]. split; [intros [[J|J]|(x & I & J)]; eauto|]. intros [J|(x & [<- |I] & J)]; eauto. }
    destruct (pojo_spec _ _ _ _ _ _ H1 E1) as [E0 [(W & ->)|P]].
    + destruct (IH _ _ _ H E T) as (T' & fs & A & F). split.
      { apply (told_iff _ _ _ Q). apply (told_iff _ (both B (tsask exc l))); [|exact T']. intros q. unfold both.
        assert (X : ~ tasks exc td q) by (rewrite (type_asks_class exc td cls q L); exact (class_asks_none sch o _ _ _ W)). tauto. }
      exists fs. split; [exact A|]. apply tf_none; assumption.
    + destruct (pojo_class _ _ _ _ _ _ _ P E1 T) as (T1 & f & c & Ef & S & F).
      assert (Qc : forall q, both B (casks (str_mem cls exc) (td_spec td)) q <-> both B (tasks exc td) q) by (intros q; unfold both; now rewrite (type_asks_class exc td cls q L)).
      apply (told_iff _ _ _ Qc) in T1. destruct (IH _ _ _ H E T1) as (T' & fs & A & Fs). split; [exact (told_iff _ _ _ Q T')|].
      exists ((out f) :: fs). split.
      * apply (adds_app st st1 st' [out f] fs); [|exact A]. split; [exact E0|]. exists [f]. auto.
      * apply tf_class; [apply P| |exact Fs]. exists cls, c. split; [exact Nn|]. split; [exact L|]. split; [exact S|].
        destruct F as (im & F1 & F2 & F3). exists im. split; [exact F1|]. split; [|exact F3]. intros p. rewrite F2. apply Qc.
Qed.

(** ** The interface and the classes of the actions *)
Lemma find_first {A} (f : A -> bool) (P : A -> Prop) l : (forall x, f x = true <-> P x) ->
  match find f l with Some x => first P l x | None => forall x, In x l -> ~ P x end.
Proof.
  intros H. induction l as [|x l IH]; cbn [find]; [intros y []|]. destruct (f x) eqn:E.
  - split; [now apply H|]. exists [], l. split; [reflexivity|intros y []].
  - assert (Nx : ~ P x) by (rewrite <- H; congruence). destruct (find f l) as [z|].
    + destruct IH as (Pz & a & b & -> & N). split; [exact Pz|]. exists (x :: a), b. split; [reflexivity|]. intros y [<- |I]; auto.
    + intros y [<- |I]; auto.
Qed.
Lemma first_fun B (P : B -> Prop) l x y : first P l x -> first P l y -> x = y.
Proof.
 intros (Px & u & v & -> & N) (Py & u' & v' & E & N'). revert u' E N'. induction u as [|z u IH]; intros [|z' u'] E N'; cbn [app] in E.
  - injection E as -> _. reflexivity.
  - injection E as -> _. destruct (N' z'); [now left|exact Px].
  - injection E as -> _. destruct (N y); [now left|exact Py].
  - injection E as -> E. apply (IH (fun y I => N y (or_intror I)) u' E (fun y I => N' y (or_intror I))). 
Qed.
Lemma body_iff p : JavaModel.body_input p = true <-> java_body p.
Proof.
  unfold JavaModel.body_input, java_body. rewrite !andb_true_iff, !seqb_eq, negb_true_iff. tauto.
Qed.
Lemma plain_iff p : (ps_header p =?s "") = true <-> plain_output p.
Proof. apply seqb_eq. Qed.
Lemma info_subject h n t : action_info h = Ok (n, t) -> subject h t.
Proof.
  unfold action_info. destruct (str_mem (h_method h) ["POST"; "PUT"]) eqn:E.
  - apply str_mem_In in E. intros H. left. split; [exact E|]. pose proof (find_first JavaModel.body_input java_body (h_inputs h) body_iff) as F.
    destruct (find JavaModel.body_input (h_inputs h)) as [p|]; injection H as _ <-; [left; exists p; split; [exact F|reflexivity]|right; auto].
  - intros H. right. split; [intros I; apply str_mem_In in I; congruence|]. destruct (h_expected h) as [x|]; [|discriminate]. exists x. split; [reflexivity|].
    pose proof (find_first (fun p => ps_header p =?s "") plain_output (xp_outputs x) plain_iff) as F.
    destruct (find _ (xp_outputs x)) as [p|]; injection H as _ <-; [left; exists p; split; [exact F|reflexivity]|right; auto].
Qed.
Lemma action_named h a c : action_name h = Ok a -> go_capitalize a = Ok c -> method_named h a c.
Proof.
  intros H C. apply go_capitalize_spec in C as [Na L]. split; [|split; assumption]. unfold action_name in H. destruct (h_name h) as [|x r] eqn:E.
  - right. split; [reflexivity|]. apply rbind_Ok in H as ([n t] & I & H). injection H as <-. exists t. split; [exact (info_subject _ _ _ I)|reflexivity].
  - left. split; [discriminate|]. apply small_first_iff. injection H as <-. reflexivity.
Qed.
Lemma sig_spec h s : handler_sig h = Ok s -> exists a c, method_named h a c /\ s = "public " +++ c +++ "Response " +++ a +++ "(" +++ c +++ "Request req)".
Proof.
  unfold handler_sig, request_type, response_type. intros H. apply rbind_Ok in H as (a & A & H). apply rbind_Ok in H as (r & R & H). apply rbind_Ok in R as (c & C & R). injection R as <-.
  rewrite C in H. cbn [rbind] in H. injection H as <-. exists a, c. split; [exact (action_named _ _ _ A C)|]. rewrite !append_assoc. reflexivity.
Qed.
Lemma subject_fun h t t' : subject h t -> subject h t' -> t = t'.
Proof.
  intros S S'. destruct S as [[M S]|(M & x & X & S)], S' as [[M' S']|(M' & x' & X' & S')]; try contradiction.
  - destruct S as [(p & F & ->)|(F & ->)], S' as [(p' & F' & ->)|(F' & ->)]; try reflexivity.
    + now rewrite (first_fun _ _ _ _ _ F F').
    + destruct F as (P & u & v & E & _). destruct (F' p); [rewrite E; apply in_elt|exact P].
    + destruct F' as (P & u & v & E & _). destruct (F p'); [rewrite E; apply in_elt|exact P].
  - rewrite X in X'. injection X' as <-. destruct S as [(p & F & ->)|(F & ->)], S' as [(p' & F' & ->)|(F' & ->)]; try reflexivity.
    + now rewrite (first_fun _ _ _ _ _ F F').
    + destruct F as (P & u & v & E & _). destruct (F' p); [rewrite E; apply in_elt|exact P].
    + destruct F' as (P & u & v & E & _). destruct (F p'); [rewrite E; apply in_elt|exact P].
Qed.
Lemma method_fun h a c a' c' : method_named h a c -> method_named h a' c' -> a = a' /\ c = c'.
Proof.
  intros (A & _ & C) (A' & _ & C'). assert (a = a') as <-.
  { destruct A as [[A1 A2]|[A1 (t & S & ->)]], A' as [[B1 B2]|[B1 (t' & S' & ->)]]; try congruence; [apply small_first_iff in A2, B2; congruence|].
    now rewrite (subject_fun _ _ _ S S'). }
  split; [reflexivity|]. apply large_first_iff in C, C'. congruence.
Qed.
Lemma sigs_spec hs : forall s, handler_sigs hs = Ok s -> exists acs, Forall2 (fun h ac => method_named h (fst ac) (snd ac)) hs acs
  /\ s = each (fun a => line "" +++ line ("    public " +++ snd a +++ "Response " +++ fst a +++ "(" +++ snd a +++ "Request req);")) acs.
Proof.
  induction hs as [|h hs IH]; intros s H; cbn [handler_sigs] in H; [injection H as <-; exists []; split; [constructor|reflexivity]|].
  apply rbind_Ok in H as (s1 & H1 & H). apply rbind_Ok in H as (s2 & H2 & H). apply sig_spec in H1 as (a & c & M & ->). destruct (IH _ H2) as (acs & F & ->).
  assert (s = nl +++ "    " +++ ("public " +++ c +++ "Response " +++ a +++ "(" +++ c +++ "Request req)") +++ ";" +++ nl
    +++ each (fun a => line "" +++ line ("    public " +++ snd a +++ "Response " +++ fst a +++ "(" +++ snd a +++ "Request req);")) acs) as -> by congruence.
  exists ((a, c) :: acs). split; [constructor; [exact M|exact F]|].
  cbn [each fold_right fst snd]. unfold line. change newline with nl. rewrite !append_assoc. reflexivity.
Qed.
Definition actioned_files : (request -> Prop) -> list httpdef -> list (string * string) -> list jout -> Prop :=
  actions_files java_comment go_quote dec_text sprint (jo_lombok o) (jo_immutable o) (jo_json o) (jo_instants o) (jo_header o) (jo_model_package o) sch.
Lemma err_stays_pojo ts cls c exc st st' : create_pojo dec_text m o fuel ord ts cls c exc st = Ok st' -> js_err st = true -> js_err st' = true.
Proof. intros H E. unfold create_pojo in H. rewrite E in H. injection H as <-. exact E. Qed.
Lemma err_stays_action h st st' : create_action dec_text m o fuel ord h st = Ok st' -> js_err st = true -> js_err st' = true.
Proof.
  intros H E. unfold create_action in H. apply rbind_Ok in H as (s1 & H1 & H). apply rbind_Ok in H as (s2 & H2 & H). apply rbind_Ok in H as ([[n t] e] & H3 & H). injection H as <-.
  unfold create_request in H1. rewrite E in H1. injection H1 as <-. unfold create_response in H2. rewrite E in H2. injection H2 as <-.
  destruct (goes_happens st e) as [(F & _) _]. destruct (t =?s "String"); [destruct (happen_spec (happens st e) JUtil) as [_ (G & _)]; apply G; left|]; apply F; auto.
Qed.
Lemma err_stays_actions hs : forall st st', through (create_action dec_text m o fuel ord) hs st = Ok st' -> js_err st = true -> js_err st' = true.
Proof.
  induction hs as [|h hs IH]; intros st st' H E; cbn [through] in H; [injection H as <-; exact E|]. apply rbind_Ok in H as (s1 & H1 & H).
  exact (IH _ _ H (err_stays_action _ _ _ H1 E)).
Qed.
Notation psask := (params_ask (jo_lombok o) (jo_immutable o) (jo_json o) (jo_instants o) sch).
Notation aask := (action_asks (jo_lombok o) (jo_immutable o) (jo_json o) (jo_instants o) sch).
Notation asask := (actions_ask (jo_lombok o) (jo_immutable o) (jo_json o) (jo_instants o) sch).
Lemma params_class ps cls a b B : pojo_made (struct_of (map ps_field ps)) cls "" [] a b -> js_err b = false -> told a B -> js_err a = false ->
  told b (both B (psask ps)) /\ exists f k, adds a b [f] /\ struct_shown sch (jo_instants o) (jo_lombok o) (map ps_field ps) cls false k /\ fshown (both B (psask ps)) cls "" k f.
Proof.
  intros P E T Ea. destruct (pojo_class _ _ _ _ _ _ _ P E T) as (T1 & f & c & Ef & S & F).
  assert (Q : forall q, both B (casks (str_mem cls []) (struct_of (map ps_field ps))) q <-> both B (psask ps) q).
  { intros q. unfold both, params_ask. split; (intros [J|J]; [auto|right]); [|now apply ca_struct].
    inversion J as [q0 K J'|q0 K|q0 K|q0 K|v q0 K|K|s0 c0 q0 K|q0 K|q0 K|q0 K]; subst; try discriminate K. exact J'. }
  split; [exact (told_iff _ _ _ Q T1)|]. exists (out f), c. split; [|split].
  - split; [exact Ea|]. exists [f]. auto.
  - inversion S as [k K K'|ks inner K|l K|v x u y k z K]; subst; try discriminate K. exact K'.
  - destruct F as (im & F1 & F2 & F3). exists im. split; [exact F1|]. split; [|exact F3]. intros p. rewrite F2. apply Q.
Qed.
Lemma entity_gives h x n t e : h_expected h = Some x -> entity_type dec_text m o fuel h = Ok (n, t, e) ->
  forall k q, gives_with k (e ++ if t =?s "String" then [JUtil] else []) q <-> answer_asks (jo_instants o) sch x q.
Proof.
  intros X H k q. unfold entity_type in H. rewrite X in H. pose proof (find_first (fun p => ps_header p =?s "") plain_output (xp_outputs x) plain_iff) as Fi.
  rewrite gives_app. assert (U : gives_with k (if t =?s "String" then [JUtil] else []) q <-> t = "String" /\ q = Helper).
  { destruct (t =?s "String") eqn:E; [apply seqb_eq in E; rewrite gives_cons, gives_nil; cbn [asks_with]; rewrite some_iff|apply seqb_neq in E; rewrite gives_nil]; intuition congruence. }
  rewrite U. unfold answer_asks. destruct (find _ (xp_outputs x)) as [p|].
  - apply rbind_Ok in H as (y & Hy & H). injection H as <- <- <-. rewrite (name_asks k dec_text sch m Hm o _ _ _ _ _ Hy q).
    apply (name_shows dec_text sch m Hm o) in Hy as (t0 & a0 & Us & Tx & _). split.
    + intros J. exists p. split; [exact Fi|]. destruct J as [J|[J ->]]; [auto|]. right. split; [reflexivity|]. exists t0, a0. split; [exact Us|congruence].
    + intros (p' & F & J). rewrite (first_fun _ _ _ _ _ F Fi) in J. destruct J as [J|(-> & t1 & a1 & U1 & J)]; [auto|]. right. split; [|reflexivity].
      rewrite Tx. rewrite (proj1 (use_one dec_text sch m Hm o _ _ _ _ _ _ _ Us U1)). exact J.
  - injection H as <- <- <-. rewrite gives_nil. split; [intros [[]|[J _]]; discriminate|]. intros (p' & (P & u & v & Eq & _) & _). destruct (Fi p'); [rewrite Eq; apply in_elt|exact P].
Qed.
Lemma action_spec h st st' B : create_action dec_text m o fuel ord h st = Ok st' -> js_err st' = false -> told st B ->
  forall ac, method_named h (fst ac) (snd ac) -> told st' (both B (aask h)) /\ exists fs, adds st st' fs
    /\ action_files java_comment go_quote dec_text sprint (jo_lombok o) (jo_immutable o) (jo_json o) (jo_instants o) (jo_header o) (jo_model_package o) sch B h ac fs.
Proof.
  intros H E T [a c] M. cbn [fst snd] in M. unfold create_action in H. apply rbind_Ok in H as (s1 & H1 & H). apply rbind_Ok in H as (s2 & H2 & H). apply rbind_Ok in H as ([[n t] e] & H3 & H).
  assert (G : goes s2 st' (e ++ if t =?s "String" then [JUtil] else []) []).
  { assert (H' : st' = if t =?s "String" then happen (happens s2 e) JUtil else happens s2 e) by congruence. rewrite H'. destruct (t =?s "String"); [|rewrite app_nil_r; apply goes_happens].
    apply (goes_app _ _ _ _ [JUtil] [] [] (goes_happens s2 e)). destruct (happen_spec (happens s2 e) JUtil) as [Q1 Q2]. split; [exact Q2|]. now rewrite app_nil_r. }
  destruct (goes_err _ _ _ _ G E) as [E2 _]. clear H.
  assert (E1 : js_err s1 = false).
  { destruct (js_err s1) eqn:E1; [|reflexivity]. unfold create_response in H2. rewrite E1 in H2. congruence. }
  assert (E0 : js_err st = false).
  { destruct (js_err st) eqn:E0; [|reflexivity]. unfold create_request in H1. rewrite E0 in H1. congruence. }
  unfold create_request in H1. rewrite E0 in H1. apply rbind_Ok in H1 as (a1 & A1 & H1). apply rbind_Ok in H1 as (q & Q & H1). unfold request_type in Q. apply rbind_Ok in Q as (c1 & C1 & Q). injection Q as <-.
  destruct (method_fun _ _ _ _ _ (action_named _ _ _ A1 C1) M) as [-> ->].
  unfold create_response in H2. rewrite E1, A1 in H2. cbn [rbind] in H2. apply rbind_Ok in H2 as (q & Q & H2). unfold response_type in Q. rewrite C1 in Q. injection Q as <-.
  destruct (h_expected h) as [x|] eqn:X; [|discriminate].
  destruct (pojo_spec _ _ _ _ _ _ H1 E1) as [_ [(W & _)|P1]]; [destruct W; now left|].
  destruct (pojo_spec _ _ _ _ _ _ H2 E2) as [_ [(W & _)|P2]]; [destruct W; now left|].
  destruct (params_class _ _ _ _ _ P1 E1 T E0) as (T1 & f & k & Af & Sf & Ff).
  destruct (params_class _ _ _ _ _ P2 E2 T1 E1) as (T2 & g & k' & Ag & Sg & Fg).
  split.
  { pose proof (told_goes _ _ _ _ _ _ G T2 (entity_gives _ _ _ _ _ X H3)) as T3. revert T3. apply told_iff.
    intros q. unfold both, action_asks. rewrite X. split.
    - intros [[[J|J]|J]|J]; [auto|right; left; exact J|right; right; exists x; auto|right; right; exists x; auto].
    - intros [J|[J|(x' & Ex & [J|J])]]; auto; injection Ex as <-; auto. }
  exists ([f] ++ [g] ++ []). split.
  - apply (adds_app st s1 st' _ _ Af). apply (adds_app s1 s2 st' _ _ Ag). destruct G as [Gf Gl]. split; [exact E2|]. exists []. split; [exact Gl|reflexivity].
  - split; [exact M|]. exists x, f, g. split; [exact X|]. split; [reflexivity|]. split; [exists k; auto|]. split; [exists k'; auto|].
    intros p Fp. unfold entity_type in H3. rewrite X in H3. pose proof (find_first (fun p => ps_header p =?s "") plain_output (xp_outputs x) plain_iff) as Fi.
    destruct (find _ (xp_outputs x)) as [p'|].
    + rewrite (first_fun _ _ _ _ _ Fp Fi).
      apply rbind_Ok in H3 as (y & H3 & _). apply (name_shows dec_text sch m Hm o) in H3 as (t0 & a0 & U & _). exists t0, a0. exact U.
    + destruct Fp as (P & u & v & Eq & _). destruct (Fi p); [rewrite Eq; apply in_elt|exact P].
Qed.
Lemma actions_spec hs : forall acs st st' B, Forall2 (fun h ac => method_named h (fst ac) (snd ac)) hs acs -> through (create_action dec_text m o fuel ord) hs st = Ok st' ->
  js_err st' = false -> told st B -> told st' (both B (asask hs)) /\ exists fs, adds st st' fs /\ actioned_files B hs acs fs.
Proof.
  intros acs st st' B F. revert st st' B. induction F as [|h ac hs acs M F IH]; intros st st' B H E T; cbn [through] in H.
  - injection H as <-. split.
    { apply (told_iff _ B); [|exact T]. intros q. unfold both. split; [auto|]. intros [J|(td & [] & _)]. exact J. }
    exists []. split; [now apply adds_none|constructor].
  - apply rbind_Ok in H as (s1 & H1 & H). assert (E1 : js_err s1 = false).
    { destruct (js_err s1) eqn:E1; [|reflexivity]. rewrite (err_stays_actions _ _ _ H E1) in E. discriminate. }
    destruct (action_spec _ _ _ _ H1 E1 T ac M) as (T1 & fs & A & Fa). destruct (IH _ _ _ H E T1) as (T2 & gs & C & D). split.
    { apply (told_iff _ (both (both B (aask h)) (asask hs))); [|exact T2]. intros q. unfold both, actions_ask. cbn [In].
      split; [intros [[J|J]|(x & I & J)]; eauto|]. intros [J|(x & [<- |I] & J)]; eauto. }
    exists (fs ++ gs). split; [exact (adds_app _ _ _ _ _ A C)|]. apply af_cons; assumption.
Qed.
Definition interfaced_files : (request -> Prop) -> list jout -> Prop :=
  interface_files java_comment go_quote dec_text sprint (jo_lombok o) (jo_immutable o) (jo_json o) (jo_instants o) (jo_header o) (jo_model_package o) (jo_name o) sch.
Lemma model_schema : m_schema m = sch.
Proof. apply new_model_inv in Hm as [E _]. exact E. Qed.
Lemma write_adds name s pkg st : js_err st = false -> js_err (write_java o name s pkg st) = false /\ adds st (write_java o name s pkg st) [(pkg, name, java_text (jo_header o) pkg s)].
Proof.
  intros E. destruct (write_goes name s pkg st E) as [F G]. unfold write_java in *. rewrite E in *. split; [reflexivity|]. split; [exact E|].
  eexists. split; [exact G|]. cbn [map java_file jf_package jf_name jf_text]. now rewrite text_java.
Qed.
Lemma interface_spec st st' B : create_interface dec_text m o fuel ord st = Ok st' -> js_err st' = false -> told st B ->
  told st' (fun q => B q \/ jo_name o <> "" /\ asask (sc_http sch) q) /\ exists fs, adds st st' fs /\ interfaced_files B fs.
Proof.
  intros H E T. unfold create_interface in H. destruct (js_err st) eqn:E0; [injection H as <-; congruence|].
  destruct (jo_name o =?s "") eqn:En.
  { apply seqb_eq in En. injection H as <-. split; [apply (told_iff _ B); [intros q; tauto|exact T]|]. exists []. split; [now apply adds_none|]. left. auto. }
  apply seqb_neq in En. cbv zeta in H. rewrite model_schema in H. apply rbind_Ok in H as (s1 & H1 & H).
  assert (E1 : js_err s1 = false).
  { destruct (js_err s1) eqn:E1; [|reflexivity]. rewrite (err_stays_actions _ _ _ H E1) in E. discriminate. }
  unfold from_template in H1. rewrite E0 in H1. destruct (handler_sigs (sc_http sch)) as [sigs| | |] eqn:Hs; cbn [rbind] in H1; try discriminate;
    [|injection H1 as <-; discriminate|injection H1 as <-; discriminate].
  apply sigs_spec in Hs as (acs & F & ->).
  match type of H1 with Ok (write_java o ?n ?x ?p st) = _ => destruct (write_adds n x p st E0) as [_ W]; pose proof (told_quiet _ _ _ _ (write_goes n x p st E0) T) as T1; assert (Es : s1 = write_java o n x p st) by congruence end.
  rewrite <- Es in W, T1. clear H1 Es.
  destruct (actions_spec _ _ _ _ _ F H E T1) as (T2 & gs & A & Fs). split; [apply (told_iff _ (both B (asask (sc_http sch)))); [intros q; unfold both; tauto|exact T2]|].
  eexists. split; [exact (adds_app _ _ _ _ _ W A)|]. right. split; [exact En|]. exists acs, gs. split; [exact Fs|]. cbn [app]. f_equal. f_equal.
  unfold interface_file, interface_text, line. change newline with nl. rewrite !append_assoc. reflexivity.
Qed.
Lemma exceptions_spec xs : forall st l st', exception_types dec_text m o fuel xs st = Ok (l, st') ->
  (forall B, told st B -> told st' (fun q => B q \/ exists x, In x xs /\ use_asks sch (jo_instants o) None (xc_type x) true q)) /\ js_files st' = js_files st
  /\ (forall x, In x xs -> exists t a, java_use sch (jo_instants o) None (xc_type x) true t a)
  /\ (forall n, In n l <-> exists x t a, In x xs /\ java_use sch (jo_instants o) None (xc_type x) true t a /\ n = jtype_text t).
Proof.
  induction xs as [|x xs IH]; intros st l st' H; cbn [exception_types] in H.
  - injection H as <- <-. split.
    { intros B Tl. apply (told_iff _ B); [|exact Tl]. intros q. split; [auto|]. intros [J|(td & [] & _)]. exact J. }
    split; [reflexivity|]. split; [intros x []|]. intros n. split; [intros []|]. intros (x & t & a & [] & _).
  - apply rbind_Ok in H as (y & Hy & H). apply rbind_Ok in H as ([l1 s1] & H1 & H). injection H as <- <-.
    pose proof (fun k q => name_asks k dec_text sch m Hm o _ _ _ _ _ Hy q) as Tn. destruct (IH _ _ _ H1) as (A & Bf & C & D).
    apply (name_shows dec_text sch m Hm o) in Hy as (t & a & U & T & _). destruct (goes_happens st (jn_events y)) as [G1 G2]. rewrite app_nil_r in G2.
    split.
    { intros B Tl. pose proof (A _ (told_goes _ _ _ _ _ _ (goes_happens st (jn_events y)) Tl Tn)) as A'. revert A'. apply told_iff. intros q. unfold both. cbn [In]. split; [intros [[J|J]|(z & I & J)]; eauto|]. intros [J|(z & [<- |I] & J)]; eauto. }
    split; [congruence|]. split; [intros z [<- |I]; eauto|]. intros n. split.
    + intros [<- |I]; [exists x, t, a; split; [now left|]; auto|]. apply D in I as (z & t' & a' & I & J). exists z, t', a'. split; [now right|exact J].
    + intros (z & t' & a' & [<- |I] & V & ->); [left; rewrite T; exact (proj1 (use_one dec_text sch m Hm o _ _ _ _ _ _ _ U V))|right; apply D; eauto 6].
Qed.
Definition all_files : list jout -> Prop :=
  java_files java_comment go_quote dec_text sprint (jo_lombok o) (jo_immutable o) (jo_json o) (jo_instants o) (jo_service_exception o)
    (jo_header o) (jo_package o) (jo_model_package o) (jo_name o) sch timestamp_text util_text exception_text.
Theorem files_text st : create_model dec_text m o fuel ord start = Ok st -> js_err st = false ->
  all_files (map (fun f => out f) (js_files st)).
Proof.
  intros H E. unfold create_model in H. cbv zeta in H. rewrite model_schema in H.
  apply rbind_Ok in H as ([exc s0] & H0 & H). apply rbind_Ok in H as (s1 & H1 & H). apply rbind_Ok in H as (s2 & H2 & H).
  set (s3 := if js_timestamp s2 then write_java o "Timestamp" timestamp_text (jo_package o) s2 else if js_instant s2 then happen s2 JUtil else s2) in H.
  set (s4 := if js_util s3 then write_java o "Util" util_text (jo_model_package o) s3 else s3) in H.
  assert (E4 : js_err s4 = false).
  { destruct (jo_service_exception o); [|injection H as <-; exact E]. unfold from_template in H. destruct (js_err s4) eqn:E4; [injection H as <-; congruence|reflexivity]. }
  assert (E3 : js_err s3 = false).
  { destruct (js_err s3) eqn:E3; [|reflexivity]. subst s4. destruct (js_util s3); [unfold write_java in E4; rewrite E3 in E4; congruence|congruence]. }
  assert (E2 : js_err s2 = false).
  { destruct (js_err s2) eqn:E2; [|reflexivity]. subst s3. destruct (js_timestamp s2); [unfold write_java in E3; rewrite E2 in E3; congruence|].
    destruct (js_instant s2); cbn in E3; congruence. }
  assert (Start : told start (fun _ => False)) by (split; [apply NoDup_nil|]; cbn; intuition congruence).
  assert (X0 : told s0 (exceptions_ask (jo_instants o) (jo_service_exception o) sch) /\ js_files s0 = [] /\ (forall n, str_mem n exc = true <-> is_thrown (jo_instants o) (jo_service_exception o) sch n)
     /\ (jo_service_exception o = false -> forall h x, In h (sc_http sch) -> In x (h_exceptions h) -> exists t a, java_use sch (jo_instants o) None (xc_type x) true t a)).
  { unfold is_thrown, exceptions_ask. destruct (jo_service_exception o).
    - injection H0 as <- <-. split; [revert Start; apply told_iff; intros q; intuition congruence|]. split; [reflexivity|]. split; [|discriminate]. intros n. split; [discriminate|]. intros [K _]. discriminate.
    - apply exceptions_spec in H0 as (A & B & C & D). apply A in Start. clear A. rename Start into A. split.
      { revert A. apply told_iff. intros q. split.
        - intros [[]|(x & I & J)]. apply in_flat_map in I as (h & Ih & Ix). split; [reflexivity|]. eauto.
        - intros (_ & h & x & Ih & Ix & J). right. exists x. split; [apply in_flat_map; eauto|exact J]. }
      split; [exact B|]. split.
      + intros n. rewrite str_mem_In, D. split.
        * intros (x & t & a & I & J). apply in_flat_map in I as (h & Ih & Ix). split; [reflexivity|]. eauto 8.
        * intros (_ & h & x & t & a & Ih & Ix & J). exists x, t, a. split; [apply in_flat_map; eauto|exact J].
      + intros _ h x Ih Ix. apply C, in_flat_map. eauto. }
  destruct X0 as (N0 & F0 & T0 & U0).
  assert (E1 : js_err s1 = false).
  { destruct (js_err s1) eqn:E1; [|reflexivity]. unfold create_interface in H2. rewrite E1 in H2. congruence. }
  destruct (types_spec _ _ _ _ _ H1 E1 N0) as (T1 & ts & A1 & B1).
  destruct (interface_spec _ _ _ H2 E2 T1) as (T2 & is & A2 & B2).
  assert (T3 : (js_timestamp st = true <-> js_timestamp s2 = true) /\ (js_util st = true <-> js_util s2 = true)).
  { assert (Q : js_timestamp st = js_timestamp s4 /\ js_util st = js_util s4).
    { destruct (jo_service_exception o); [|injection H as <-; auto]. unfold from_template in H. rewrite E4 in H.
      assert (Es : st = write_java o "ServiceException" exception_text (jo_model_package o) s4) by congruence. rewrite Es. unfold write_java. rewrite E4. auto. }
    destruct Q as [-> ->]. assert (Q4 : js_timestamp s4 = js_timestamp s3 /\ js_util s4 = js_util s3).
    { subst s4. destruct (js_util s3) eqn:K; [|auto]. unfold write_java. rewrite E3. auto. }
    destruct Q4 as [-> ->]. subst s3. destruct (js_timestamp s2) eqn:K; [unfold write_java; rewrite E2; cbn; rewrite K; tauto|].
    destruct (js_instant s2) eqn:K2; [|rewrite K; tauto]. cbn. rewrite K. split; [tauto|]. split; [intros _; now apply T2|auto]. }
  assert (A3 : adds s2 s3 (fixed_file (jo_header o) (js_timestamp st) (jo_package o) "Timestamp" timestamp_text)
     /\ adds s3 s4 (fixed_file (jo_header o) (js_util st) (jo_model_package o) "Util" util_text)
     /\ adds s4 st (fixed_file (jo_header o) (jo_service_exception o) (jo_model_package o) "ServiceException" exception_text)).
  { assert (Q : js_timestamp st = js_timestamp s4 /\ js_util st = js_util s4 /\ adds s4 st (fixed_file (jo_header o) (jo_service_exception o) (jo_model_package o) "ServiceException" exception_text)).
    { destruct (jo_service_exception o); [|injection H as <-; split; [reflexivity|]; split; [reflexivity|]; now apply adds_none].
      unfold from_template in H. rewrite E4 in H. assert (Es : st = write_java o "ServiceException" exception_text (jo_model_package o) s4) by congruence. rewrite Es.
      split; [unfold write_java; rewrite E4; reflexivity|]. split; [unfold write_java; rewrite E4; reflexivity|]. exact (proj2 (write_adds "ServiceException" exception_text (jo_model_package o) s4 E4)). }
    destruct Q as (Q1 & Q2 & Q3). assert (Q4 : js_timestamp s4 = js_timestamp s3 /\ js_util s4 = js_util s3).
    { subst s4. destruct (js_util s3) eqn:K; [|auto]. unfold write_java. rewrite E3. auto. }
    assert (Q5 : js_timestamp s3 = js_timestamp s2).
    { subst s3. destruct (js_timestamp s2) eqn:K; [unfold write_java; rewrite E2; exact K|]. destruct (js_instant s2); exact K. }
    split; [|split; [|exact Q3]].
    - rewrite Q1, (proj1 Q4), Q5. subst s3. destruct (js_timestamp s2); [exact (proj2 (write_adds "Timestamp" timestamp_text (jo_package o) s2 E2))|].
      destruct (js_instant s2); [|now apply adds_none]. split; [exact E2|]. exists []. split; [symmetry; apply app_nil_r|reflexivity].
    - rewrite Q2, (proj2 Q4). subst s4. destruct (js_util s3); [exact (proj2 (write_adds "Util" util_text (jo_model_package o) s3 E3))|now apply adds_none]. }
  destruct A3 as (A3 & A4 & A5).
  pose proof (adds_app _ _ _ _ _ A1 (adds_app _ _ _ _ _ A2 (adds_app _ _ _ _ _ A3 (adds_app _ _ _ _ _ A4 A5)))) as (_ & l & L1 & L2).
  rewrite F0 in L1. cbn [app] in L1. rewrite L1, <- L2. exists (fun n => str_mem n exc), (js_timestamp st), (js_util st), ts, is. split; [exact T0|]. split; [exact U0|]. split; [exact B1|]. split; [exact B2|].
  destruct T2 as (_ & _ & TS & TU & _). destruct T3 as [T3 T4]. cbv zeta. rewrite T3, T4, TS, TU. unfold both. split; [tauto|]. split; [tauto|reflexivity].
Qed.
End FILES.
