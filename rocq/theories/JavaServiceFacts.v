(** Facts about the generated Java server and client: their texts, and when they can be generated. *)
From Verif Require Import GoStr Outcome Value Schema Scalars Model Misc Generator Golang GoModel GoServer OpenApi Java JavaModel JavaService
  SpecTime SpecMisc SpecModel SpecPV SpecTrace SpecGo SpecGen SpecGoServer SpecJava SpecJavaService ModelFacts PVFacts TraceFacts GenFacts GoModelFacts GoText GoServerFacts GoRoute
  JavaFacts JavaText JavaAsks JavaFiles JavaGood.
From Coq Require Import Lia.

(** an Instant is imported where it is noted *)
Lemma name_instant dec_text m o f : forall ts n r x, type_name dec_text m o f ts n r = Ok x -> In JInstant (jn_events x) <-> In (JImport "java.time.Instant") (jn_events x).
Proof.
  induction f as [|f IH]; intros ts n r x H; [discriminate|]. cbn [type_name] in H.
  destruct (if r then primitive_type n else None); [injection H as <-; reflexivity|].
  apply rbind_Ok in H as (y & H & E). injection E as <-. cbn [jn_events with_events]. rewrite !in_app_iff.
  enough (In JInstant (jn_events y) <-> In (JImport "java.time.Instant") (jn_events y)) as -> by (destruct r; cbn [In not_null]; intuition discriminate).
  set (nm := match primitive_type n with Some p => if p =?s "int" then "Integer" else capitalize p | None => n end) in H. clearbody nm.
  assert (St : forall e a, In JInstant (jn_events (timestamp_name o e a)) <-> In (JImport "java.time.Instant") (jn_events (timestamp_name o e a)))
    by (intros e a; unfold timestamp_name; destruct (jo_instants o); cbn; intuition discriminate).
  destruct (nm =?s "String").
  { unfold string_annos, size_annos in H. destruct ts as [ts|]; [|injection H as <-; reflexivity].
    destruct (ts_pattern ts =?s ""), (ts_minsize ts), (ts_maxsize ts); injection H as <-; cbn; intuition discriminate. }
  destruct (str_mem nm boxed_names); [injection H as <-; reflexivity|].
  destruct (nm =?s "Decimal"); [injection H as <-; cbn; intuition discriminate|].
  destruct (nm =?s "Timestamp"); [injection H as <-; apply St|].
  destruct (nm =?s "Array").
  { destruct ts as [ts|]; [|injection H as <-; cbn; intuition discriminate]. destruct (find_type m (ts_items ts)); [|discriminate].
    apply rbind_Ok in H as (i & Hi & H). injection H as <-. apply IH in Hi. cbn [jn_events In]. intuition discriminate. }
  destruct (nm =?s "Map").
  { destruct ts as [ts|]; [|injection H as <-; cbn; intuition discriminate]. destruct (find_type m (ts_keys ts)); [|discriminate].
    apply rbind_Ok in H as (k & Hk & H). destruct (find_type m (ts_items ts)); [|discriminate].
    apply rbind_Ok in H as (i & Hi & H). injection H as <-. apply IH in Hi. apply IH in Hk. cbn [jn_events In]. rewrite !in_app_iff. intuition discriminate. }
  destruct (nm =?s "UUID"); [injection H as <-; cbn; intuition discriminate|].
  destruct (nm =?s "Any"); [injection H as <-; reflexivity|].
  destruct (find_type m nm) as [td|]; [|injection H as <-; reflexivity]. cbv zeta in H.
  destruct (str_mem _ _); [apply IH in H; exact H|].
  destruct (_ =?s "String"); [apply IH in H; exact H|].
  destruct (_ =?s "Array"); [apply IH in H; exact H|].
  destruct (_ =?s "Map"); [apply IH in H; exact H|].
  destruct (_ && _)%bool; [injection H as <-; reflexivity|].
  destruct (_ =?s "UUID"); [injection H as <-; cbn; intuition discriminate|].
  destruct (_ =?s "Decimal"); [injection H as <-; cbn; intuition discriminate|].
  destruct (_ =?s "Timestamp"); [injection H as <-; apply St|]. injection H as <-; reflexivity.
Qed.

(** a text without an error *)
Definition ret (p : piece) (s : string) : Prop := exists e, p = Ok (s, e) /\ ~ In JError e.
Lemma ret_fun p s s' e : ret p s -> p = Ok (s', e) -> s' = s /\ ~ In JError e.
Proof. intros (e' & -> & N) H. apply ok_pair in H as [-> ->]. auto. Qed.
Lemma pieces_ret {A B} (R : A -> B -> Prop) (f : A -> piece) (g : B -> string) l ks : (forall a b, R a b -> ret (f a) (g b)) -> Forall2 R l ks -> ret (pieces f l) (each g ks).
Proof.
  intros H. induction 1 as [|a b l ks Rab F IH]; [exists []; split; [reflexivity|intros []]|]. destruct (H a b Rab) as (e & E & N). destruct IH as (e' & E' & N').
  exists (e ++ e'). cbn [pieces]. rewrite E. rewrite rbind_now. cbv beta iota. rewrite E'. rewrite rbind_now. cbv beta iota. split; [reflexivity|]. apply in_e. auto.
Qed.
Lemma ret_pieces {A B} (R : A -> B -> Prop) (f : A -> piece) l : (forall a s e, f a = Ok (s, e) -> exists b, R a b) -> forall s e, pieces f l = Ok (s, e) -> exists ks, Forall2 R l ks.
Proof.
  intros H. induction l as [|a l IH]; intros s e P; [exists []; constructor|]. cbn [pieces] in P. apply rbind_Ok in P as ([s1 e1] & P1 & P). apply rbind_Ok in P as ([s2 e2] & P2 & P).
  destruct (H _ _ _ P1) as [b Rb]. destruct (IH _ _ P2) as [ks F]. exists (b :: ks). constructor; assumption.
Qed.
Lemma ev_forall2 {A B} (R : A -> B -> nat -> Prop) (Q : A -> B -> Prop) l ks : (forall a b, Q a b -> ev (R a b)) -> Forall2 Q l ks -> ev (fun f => Forall2 (fun a b => R a b f) l ks).
Proof.
  intros H. induction 1 as [|a b l ks Qab F IH]; [apply ev_now; constructor|].
  generalize (ev_and _ _ (H a b Qab) IH). apply ev_mono. intros f [U V]. constructor; assumption.
Qed.
Lemma small_ok n : n <> "" -> go_uncapitalize n = Ok (small n).
Proof. destruct n; [contradiction|reflexivity]. Qed.

Section SERVICE.
Context (dec_text : decimal -> string) (sch : schema) (m : model) (Hm : new_model sch = Ok m) (o : jopts) (sv : jservice).
Notation tn := (type_name dec_text m o).
Notation jname_of := (java_name sch (jo_instants o)).
Definition named_at (f : nat) (n : string) (r : bool) (t : jtype) : Prop := (exists x, tn f None n r = Ok x /\ jn_text x = jtype_text t) /\ jname_of n r t.
Lemma name_at f n r x : tn f None n r = Ok x -> exists t, named_at f n r t /\ jn_text x = jtype_text t.
Proof.
  intros H. pose proof (name_shows dec_text sch m Hm o f _ _ _ _ H) as (t & a & U & T & _). exists t. split; [|exact T]. split; [exists x; auto|exists a; exact U].
Qed.
Lemma name_ev n r t : jname_of n r t -> ev (fun f => named_at f n r t).
Proof.
  intros [a U]. assert (J : jname_of n r t) by (exists a; exact U). apply (use_named dec_text sch m Hm o) in U. revert U. apply ev_mono. intros f (x & X & T & _). split; [exists x; auto|exact J].
Qed.

Section FUEL.
Context (f : nat).
Notation at_f := (named_at f).

(** ** The server *)
Lemma default_ok v d : default_shown dec_text v d -> default_anno dec_text v = Ok (match d with Some s => "@DefaultValue(" +++ go_quote s +++ ") " | None => "" end).
Proof. intros [|s|n|b]; try reflexivity. destruct b; reflexivity. Qed.
Lemma ok_default v s : default_anno dec_text v = Ok s -> exists d, default_shown dec_text v d.
Proof. destruct v; intros H; try discriminate H; eexists; constructor. Qed.
Notation pshown := (jparam_shown at_f dec_text).
Notation ptext := (param_text go_quote).
Lemma param_ok p q : pshown p q -> exists e, resource_param dec_text m o f p = Ok (ptext q, e) /\ ~ In JError e.
Proof.
  intros (N & P & ((x & X & T) & _) & D). unfold param_type in X. unfold resource_param. rewrite X. cbn [rbind]. cbv zeta. rewrite (default_ok _ _ D). cbn [rbind]. exists (jn_events x). split; [|exact (name_no_error _ _ _ _ _ _ _ _ X)].
  f_equal. f_equal. unfold param_text. f_equal. rewrite N, T. unfold place_text.
  destruct P as [Q|Q H|Q H K|(Q & H & K)].
  - apply seqb_neq in Q. rewrite Q. cbn [negb]. rewrite !append_assoc. reflexivity.
  - rewrite Q. apply seqb_neq in H. rewrite H. cbn [negb]. cbn [String.eqb]. rewrite !append_assoc. reflexivity.
  - rewrite Q, H, K. cbn [String.eqb negb]. rewrite !append_assoc. reflexivity.
  - rewrite Q, H, K. cbn [String.eqb negb]. reflexivity.
Qed.
Lemma ok_param p s e : resource_param dec_text m o f p = Ok (s, e) -> exists q, pshown p q.
Proof.
  unfold resource_param. intros H. apply rbind_Ok in H as (x & X & H). apply rbind_Ok in H as (d & D & _). apply name_at in X as (t & T & _). apply ok_default in D as [d' D].
  assert (P : exists pl, placed p pl).
  { destruct (string_dec (ps_query p) "") as [Q|Q]; [|eexists; apply pl_query, Q]. destruct (string_dec (ps_header p) "") as [K|K]; [|eexists; apply pl_header; assumption].
    destruct (ps_path p) eqn:E; [eexists; apply pl_path; assumption|eexists; apply pl_body; repeat split; assumption]. }
  destruct P as [pl P]. exists (mkJP (fd_name (ps_field p)) pl t d'). repeat split; try exact P; try exact D; apply T.
Qed.
Lemma params_ok ps qs : Forall2 pshown ps qs -> exists e, resource_params dec_text m o f ps = Ok (map ptext qs, e) /\ ~ In JError e.
Proof.
  induction 1 as [|p q ps qs P F IH]; [exists []; split; [reflexivity|intros []]|]. destruct (param_ok _ _ P) as (e & E & N). destruct IH as (e' & E' & N').
  exists (e ++ e'). cbn [resource_params]. rewrite E. rewrite rbind_now. cbv beta iota. rewrite E'. split; [reflexivity|]. apply in_e. auto.
Qed.
Lemma ok_params ps : forall l e, resource_params dec_text m o f ps = Ok (l, e) -> exists qs, Forall2 pshown ps qs.
Proof.
  induction ps as [|p ps IH]; intros l e H; [exists []; constructor|]. cbn [resource_params] in H. apply rbind_Ok in H as ([s e1] & H1 & H). apply rbind_Ok in H as ([l' e2] & H2 & _).
  destruct (ok_param _ _ _ H1) as [q Q]. destruct (IH _ _ H2) as [qs F]. exists (q :: qs). constructor; assumption.
Qed.

(** the body of the answer *)
Notation plain_in := (find (fun p => ps_header p =?s "")).
Lemma plain_first outs : match plain_in outs with Some x => first plain_output outs x | None => forall x, In x outs -> ~ plain_output x end.
Proof. exact (find_first (fun p => ps_header p =?s "") plain_output outs plain_iff). Qed.
Lemma first_plain outs p : first plain_output outs p -> plain_in outs = Some p.
Proof.
  intros F. pose proof (plain_first outs) as G. destruct (plain_in outs) as [q|]; [f_equal; exact (first_fun _ _ _ _ _ G F)|].
  destruct F as (P & u & v & E & _). destruct (G p); [rewrite E; apply in_elt|exact P].
Qed.
Lemma no_plain outs : (forall p, In p outs -> ~ plain_output p) -> plain_in outs = None.
Proof.
  intros G. pose proof (plain_first outs) as F. destruct (plain_in outs) as [q|]; [|reflexivity]. destruct F as (P & u & v & E & _). destruct (G q); [rewrite E; apply in_elt|exact P].
Qed.
(** what the first output that is no header shows *)
Lemma entity_ok h x (K : string -> string -> Prop) : h_expected h = Some x ->
  (exists p t, first plain_output (xp_outputs x) p /\ at_f (param_type p) true t /\ K (fd_name (ps_field p)) (jtype_text t)) \/ (forall p, In p (xp_outputs x) -> ~ plain_output p) /\ K "" "void" ->
  exists n t e, entity_type dec_text m o f h = Ok (n, t, e) /\ ~ In JError e /\ K n t.
Proof.
  intros X [(p & t & F & ((y & Y & T) & _) & k)|(N & k)]; unfold entity_type; rewrite X.
  - rewrite (first_plain _ _ F). unfold param_type in Y. rewrite Y. cbn [rbind]. eexists _, _, _. split; [reflexivity|]. split; [exact (name_no_error _ _ _ _ _ _ _ _ Y)|]. rewrite T. exact k.
  - rewrite (no_plain _ N). eexists _, _, _. split; [reflexivity|]. split; [intros []|exact k].
Qed.
Lemma ok_entity h x n t e : h_expected h = Some x -> entity_type dec_text m o f h = Ok (n, t, e) ->
  (exists p t', first plain_output (xp_outputs x) p /\ at_f (param_type p) true t') \/ (forall p, In p (xp_outputs x) -> ~ plain_output p).
Proof.
  intros X. unfold entity_type. rewrite X. pose proof (plain_first (xp_outputs x)) as F. destruct (plain_in (xp_outputs x)) as [p|]; [|right; exact F].
  intros H. apply rbind_Ok in H as (y & Y & _). apply name_at in Y as (t' & T & _). left. exists p, t'. auto.
Qed.
Lemma headers_ok ps : (forall p, In p (header_outputs ps) -> fd_name (ps_field p) <> "") ->
  header_calls ps = Ok (each (fun h => ".header(""" +++ fst h +++ """, res.get" +++ big_first (snd h) +++ "())") (map (fun p => (ps_header p, fd_name (ps_field p))) (header_outputs ps))).
Proof.
  induction ps as [|p ps IH]; intros H; [reflexivity|]. cbn [header_calls header_outputs filter] in *. destruct (string_dec (ps_header p) "") as [E|E].
  - rewrite E. cbn [String.eqb rbind]. rewrite IH by exact H. reflexivity.
  - apply seqb_neq in E. rewrite E. rewrite (big_cap _ (H p (or_introl eq_refl))). cbn [rbind]. rewrite IH by (intros q I; apply H; right; exact I).
    cbn [rbind map each fold_right fst snd]. rewrite !append_assoc. reflexivity.
Qed.
Lemma ok_headers ps : forall s, header_calls ps = Ok s -> forall p, In p (header_outputs ps) -> fd_name (ps_field p) <> "".
Proof.
  induction ps as [|p ps IH]; intros s H q I; [destruct I|]. cbn [header_calls] in H. apply rbind_Ok in H as (s1 & H1 & H). apply rbind_Ok in H as (s2 & H2 & _).
  cbn [header_outputs filter] in I. destruct (string_dec (ps_header p) "") as [E|E]; [exact (IH _ H2 q I)|]. apply seqb_neq in E. rewrite E in H1. apply rbind_Ok in H1 as (c & C & _).
  destruct I as [<- |I]; [|exact (IH _ H2 q I)]. intros N. rewrite N in C. discriminate.
Qed.

(** errors *)
Definition error_at (c : exceptionspec) (e : jtype * Z) : Prop := at_f (xc_type c) true (fst e) /\ snd e = xc_status c.
Notation apart := (filter (fun e : jtype * Z => if string_dec (jtype_text (fst e)) "ServiceException" then false else true)).
Lemma tests_ok cs es : Forall2 error_at cs es -> forall b, exists e, entity_tests dec_text m o f b cs
  = Ok (branches sprint b (apart es), e, match apart es with [] => false | _ => true end, existsb (fun e => gone (snd e)) (apart es)) /\ ~ In JError e.
Proof.
  induction 1 as [|c k cs es [((x & X & T) & _) S] F IH]; intros b; [exists []; split; [reflexivity|intros []]|].
  cbn [entity_tests filter]. rewrite X. cbn [rbind]. rewrite T. pose proof (name_no_error _ _ _ _ _ _ _ _ X) as Nx. destruct (string_dec (jtype_text (fst k)) "ServiceException") as [E|E].
  - rewrite E. cbn [String.eqb Ascii.eqb Bool.eqb]. destruct (IH b) as (e & -> & Ne). rewrite rbind_now. cbv beta iota. eexists. split; [reflexivity|]. apply in_e. auto.
  - apply seqb_neq in E. rewrite E. destruct (IH false) as (e & -> & Ne). rewrite rbind_now. cbv beta iota zeta. eexists. split; [|apply in_e; split; [exact Nx|exact Ne]].
    cbn [branches existsb]. rewrite S. fold (gone (xc_status c)). f_equal. f_equal. f_equal. f_equal. unfold line. change newline with nl. destruct b, (gone (xc_status c)); rewrite !append_assoc; reflexivity.
Qed.
Lemma ok_tests cs : forall b r, entity_tests dec_text m o f b cs = Ok r -> exists es, Forall2 error_at cs es.
Proof.
  induction cs as [|c cs IH]; intros b r H; [exists []; constructor|]. cbn [entity_tests] in H. apply rbind_Ok in H as (x & X & H). apply name_at in X as (t & T & _).
  assert (Z : exists b' r', entity_tests dec_text m o f b' cs = Ok r').
  { destruct (jn_text x =?s "ServiceException"); cbv zeta in H; apply rbind_Ok in H as (r' & R & _); eauto. }
  destruct Z as (b' & r' & Z). destruct (IH _ _ Z) as [es F]. exists ((t, xc_status c) :: es). constructor; [split; [exact T|reflexivity]|exact F].
Qed.
Lemma catches_ok cs es : Forall2 error_at cs es -> ret (catches dec_text m o f cs)
  (each (fun e => line ("        } catch (" +++ jtype_text (fst e) +++ " e) {")
                      +++ line ("                throw new WebApplicationException(Response.status(" +++ sprint (snd e) +++ ").entity(e).build());")) es).
Proof.
  induction 1 as [|c k cs es [((x & X & T) & _) S] F IH]; [exists []; split; [reflexivity|intros []]|]. destruct IH as (e & E & N).
  cbn [catches]. unfold ret. rewrite X. cbn [rbind]. rewrite E. rewrite rbind_now. cbv beta iota. eexists. split; [|apply in_e; split; [exact (name_no_error _ _ _ _ _ _ _ _ X)|exact N]].
  f_equal. f_equal. cbn [each fold_right]. rewrite T, S. unfold line. change newline with nl. rewrite !append_assoc. reflexivity.
Qed.
Lemma ok_catches cs : forall s e, catches dec_text m o f cs = Ok (s, e) -> exists es, Forall2 error_at cs es.
Proof.
  induction cs as [|c cs IH]; intros s e H; [exists []; constructor|]. cbn [catches] in H. apply rbind_Ok in H as (x & X & H). apply rbind_Ok in H as ([s' e'] & Z & _). apply name_at in X as (t & T & _).
  destruct (IH _ _ Z) as [es F]. exists ((t, xc_status c) :: es). constructor; [split; [exact T|reflexivity]|exact F].
Qed.
Notation etext := (errors_text sprint (jo_service_exception o)).
Lemma errors_ok h r : Forall2 error_at (h_exceptions h) (jr_errors r) -> ret (handle_errors dec_text m o f h) (etext r).
Proof.
  intros F. unfold handle_errors, errors_text. destruct (jo_service_exception o); [|apply catches_ok, F].
  destruct (tests_ok _ _ F true) as (e & -> & N). rewrite rbind_now. cbv beta iota. exists e. split; [|exact N]. f_equal. f_equal. unfold told_apart, line. change newline with nl.
  set (l := apart (jr_errors r)). clearbody l. destruct l as [|k l]; [reflexivity|]. destruct (existsb _ _); rewrite !append_assoc; reflexivity.
Qed.
Lemma ok_errors h s e : handle_errors dec_text m o f h = Ok (s, e) -> exists es, Forall2 error_at (h_exceptions h) es.
Proof.
  unfold handle_errors. destruct (jo_service_exception o); intros H; [|exact (ok_catches _ _ _ H)]. apply rbind_Ok in H as ([[[? ?] ?] ?] & T & _). exact (ok_tests _ _ _ T).
Qed.

(** one method *)
Notation rtext := (resource_text go_quote sprint (jo_immutable o) (jo_service_exception o) (jo_name o)).
Notation rshown := (resource_shown at_f dec_text).
Lemma resource_ok h r : jo_name o <> "" -> rshown h r -> ret (resource dec_text m o f h) (rtext r).
Proof.
  intros Nn (x & X & M & Me & Pa & Ps & St & An & Hd & Hn & En & Er). unfold resource, resource_sig, resource_body, request_type, response_type.
  destruct (named_action _ _ _ M) as [A C]. rewrite A. rewrite !rbind_now. rewrite C. rewrite !rbind_now. destruct (params_ok _ _ Ps) as (e1 & -> & N1). rewrite rbind_now. cbv beta iota.
  destruct (entity_ok h x (fun n t => jr_entity r = if in_dec string_dec n [""; "void"] then None else Some (n, if string_dec t "String" then true else false)) X) as (n & t & e2 & -> & N2 & K).
  { destruct En as [(p & t & F & T & E)|(G & E)]; [left; exists p, t; split; [exact F|]; split; [exact T|exact E]|right; split; [exact G|exact E]]. }
  rewrite rbind_now. cbv beta iota. rewrite X. unfold impl_name. rewrite (small_ok _ Nn). rewrite !rbind_now. cbv zeta.
  destruct (errors_ok h r Er) as (e3 & -> & N3).
  assert (L : forall g : string -> string, fold_right (fun p acc => g (fd_name (ps_field p)) +++ acc) "" (h_inputs h) = each (fun q => g (jp_name q)) (jr_params r)).
  { intros g. clear -Ps. induction Ps as [|p q ps qs P F IH]; [reflexivity|]. cbn [fold_right each]. rewrite IH. destruct P as (-> & _). reflexivity. }
  assert (Fold : fold_right (fun p acc => "." +++ fd_name (ps_field p) +++ "(" +++ fd_name (ps_field p) +++ ")" +++ acc) "" (h_inputs h) = each (fun p => "." +++ jp_name p +++ "(" +++ jp_name p +++ ")") (jr_params r)).
  { rewrite <- (L (fun n => "." +++ n +++ "(" +++ n +++ ")")). generalize (h_inputs h). clear. intros l. induction l as [|p ps IH]; [reflexivity|]. cbn [fold_right]. rewrite IH, !append_assoc. reflexivity. }
  rewrite Fold. clear Fold L.
  assert (P : path_part (h_path h) (route_path h)) by apply route_part. rewrite (path_part_fun _ _ _ P Pa).
  assert (Body : ret (answer_call o (jr_name r) (jr_class r +++ "Response") (small (jo_name o) +++ "Controller") n t x) (answer_text sprint (jo_immutable o) (jo_name o) r)).
  { unfold answer_call, answer_text, controller. cbv zeta. rewrite Hd, St. destruct (xp_outputs x) as [|y ys] eqn:Ex.
    - assert (jr_answers r = false) as -> by (destruct (jr_answers r); [destruct (proj1 An eq_refl eq_refl)|reflexivity]).
      assert (jr_entity r = None) as ->.
      { destruct En as [(p & t' & (Pp & u & v & E & _) & _)|(_ & E)]; [destruct u; discriminate E|exact E]. }
      exists []. split; [|intros []]. f_equal. f_equal. cbn [header_outputs filter map each fold_right]. unfold line. change newline with nl. rewrite !append_assoc. reflexivity.
    - assert (jr_answers r = true) as -> by (apply An; discriminate). rewrite <- Ex in *. clear y ys Ex.
      rewrite (headers_ok _ Hn). rewrite K.
      set (hs := each _ _). clearbody hs.
      assert (W : exists w e, (if ((n =?s "void") || (n =?s ""))%bool then Ok ("", [])
                               else if jo_immutable o then c <- go_capitalize n ;; Ok (json_wrapper t ("res.get" +++ c +++ "()"))
                               else Ok (json_wrapper t ("res." +++ n))) = @Ok unit (string * list jevent) (w, e) /\ ~ In JError e
              /\ (if w =?s "" then "" else ".entity(" +++ w +++ ")")
                 = match (if in_dec string_dec n [""; "void"] then None else Some (n, if string_dec t "String" then true else false)) with
                   | Some e => ".entity(" +++ entity_text (jo_immutable o) e +++ ")" | None => "" end).
      { destruct (in_dec string_dec n [""; "void"]) as [I|I].
        - exists "", []. split; [destruct I as [<- |[<- |[]]]; reflexivity|]. split; [intros []|reflexivity].
        - assert (n <> "" /\ n <> "void") as [N0 N4] by (split; intros ->; apply I; cbn; tauto). rewrite (proj2 (seqb_neq _ _) N0), (proj2 (seqb_neq _ _) N4). cbn [orb].
          unfold entity_text, json_wrapper. cbv zeta. cbn [fst snd]. rewrite (big_cap _ N0). rewrite rbind_now.
          destruct (string_dec t "String") as [E|E]; [rewrite E; cbn [String.eqb Ascii.eqb Bool.eqb]|apply seqb_neq in E; rewrite E];
            destruct (jo_immutable o); eexists _, _; (split; [reflexivity|]); (split; [cbn; intuition discriminate|reflexivity]). }
      destruct W as (w & e & -> & Ne & We). rewrite rbind_now. cbv beta iota. rewrite rbind_now. exists e. split; [|destruct (xp_outputs x); exact Ne].
      f_equal. f_equal. rewrite We. unfold line. change newline with nl. rewrite !append_assoc. reflexivity. }
  destruct Body as (e4 & -> & N4). rewrite rbind_now. cbv beta iota. rewrite rbind_now. cbv beta iota. rewrite rbind_now. cbv beta iota.
  eexists. split; [|apply in_e; split; [exact N1|apply in_e; split; [exact N2|apply in_e; split; [exact N4|exact N3]]]].
  f_equal. f_equal. unfold resource_text. rewrite Me. unfold line. change newline with nl. destruct (jo_immutable o); rewrite !append_assoc; reflexivity.
Qed.
Lemma ok_resource h s e : resource dec_text m o f h = Ok (s, e) -> jo_name o <> "" /\ exists r, rshown h r.
Proof.
  unfold resource, resource_sig, resource_body, request_type, response_type. intros H. apply rbind_Ok in H as ([sg e1] & H1 & H). apply rbind_Ok in H as ([bd e2] & H2 & _).
  apply rbind_Ok in H1 as (a & A & H1). apply rbind_Ok in H1 as ([l e3] & Ps & _). rewrite A in H2. rewrite rbind_now in H2.
  apply rbind_Ok in H2 as (q & Q & H2). apply rbind_Ok in Q as (c & C & _). apply rbind_Ok in H2 as (q' & _ & H2). apply rbind_Ok in H2 as ([[n t] e4] & En & H2).
  destruct (h_expected h) as [x|] eqn:X; [|discriminate H2]. apply rbind_Ok in H2 as (i & I & H2). cbv zeta in H2. apply rbind_Ok in H2 as ([cl e5] & B & H2). apply rbind_Ok in H2 as ([er e6] & Er & _).
  split. { intros N. rewrite N in I. discriminate. }
  apply ok_params in Ps as [qs Ps]. apply ok_errors in Er as [es Er]. apply (ok_entity h x _ _ _ X) in En.
  assert (Hn : forall p, In p (header_outputs (xp_outputs x)) -> fd_name (ps_field p) <> "").
  { unfold answer_call in B. destruct (xp_outputs x) as [|y ys] eqn:Ex; [intros p []|]. rewrite <- Ex in *. apply rbind_Ok in B as ([w e7] & _ & B). apply rbind_Ok in B as (hs & Hs & _). exact (ok_headers _ _ Hs). }
  assert (Ee : exists en, entity_shown at_f (xp_outputs x) en).
  { destruct En as [(p & t' & F & T)|N]; [eexists; left; exists p, t'; split; [exact F|]; split; [exact T|reflexivity]|exists None; right; auto]. }
  destruct Ee as [en Ee].
  exists (mkJR (h_method h) (route_path h) a c qs (xp_status x) (match xp_outputs x with [] => false | _ => true end) (map (fun p => (ps_header p, fd_name (ps_field p))) (header_outputs (xp_outputs x))) en es).
  exists x. split; [exact X|]. split; [exact (action_named _ _ _ A C)|]. split; [reflexivity|]. split; [apply route_part|]. split; [exact Ps|]. split; [reflexivity|].
  split; [cbn [jr_answers]; destruct (xp_outputs x); split; congruence|]. split; [reflexivity|]. split; [exact Hn|]. split; [exact Ee|exact Er].
Qed.
(** what a method notes *)
Definition notes (N : string -> bool -> Prop) (e : list jevent) : Prop := In JInstant e <-> exists n r x, N n r /\ tn f None n r = Ok x /\ In JInstant (jn_events x).
Lemma notes_none : notes (fun _ _ => False) [].
Proof. split; [intros []|intros (n & r & x & [] & _)]. Qed.
Lemma notes_app N M e e' : notes N e -> notes M e' -> notes (fun n r => N n r \/ M n r) (e ++ e').
Proof.
  unfold notes. intros H K. rewrite in_app_iff, H, K. split.
  - intros [(n & r & x & A & B)|(n & r & x & A & B)]; exists n, r, x; auto.
  - intros (n & r & x & [A|A] & B); [left|right]; exists n, r, x; auto.
Qed.
Lemma notes_one n r x : tn f None n r = Ok x -> notes (fun n' r' => n' = n /\ r' = r) (jn_events x).
Proof.
  intros H. split; [intros I; exists n, r, x; auto|]. intros (n' & r' & x' & [-> ->] & E & I). rewrite H in E. injection E as ->. exact I.
Qed.
Lemma notes_iff (N M : string -> bool -> Prop) e : (forall n r, N n r <-> M n r) -> notes N e -> notes M e.
Proof. unfold notes. intros H K. rewrite K. split; intros (n & r & x & A & B); exists n, r, x; (split; [apply H, A|exact B]). Qed.
Lemma params_note ps : forall l e, resource_params dec_text m o f ps = Ok (l, e) -> notes (fun n r => exists p, In p ps /\ n = param_type p /\ r = false) e.
Proof.
  induction ps as [|p ps IH]; intros l e H; cbn [resource_params] in H.
  - assert (e = []) as -> by congruence. eapply notes_iff; [|exact notes_none]. intros n r. split; [intros []|intros (p & [] & _)].
  - apply rbind_Ok in H as ([s e1] & H1 & H). apply rbind_Ok in H as ([l' e2] & H2 & H). apply ok_pair in H as [_ ->]. unfold resource_param in H1. apply rbind_Ok in H1 as (x & X & H1). apply rbind_Ok in H1 as (d & _ & H1). apply ok_pair in H1 as [_ ->].
    eapply notes_iff; [|exact (notes_app _ _ _ _ (notes_one _ _ _ X) (IH _ _ H2))]. intros n r. cbn [In]. split.
    + intros [[-> ->]|(q & I & E)]; [exists p; unfold param_type; auto|exists q; auto].
    + intros (q & [<- |I] & -> & ->); [left; auto|right; exists q; auto].
Qed.
Lemma entity_note h n t e : entity_type dec_text m o f h = Ok (n, t, e) -> notes (fun n r => exists x p, h_expected h = Some x /\ first plain_output (xp_outputs x) p /\ n = param_type p /\ r = true) e.
Proof.
  unfold entity_type. destruct (h_expected h) as [x|]; [|discriminate]. pose proof (plain_first (xp_outputs x)) as F. destruct (plain_in (xp_outputs x)) as [p|]; intros H.
  - apply rbind_Ok in H as (y & Y & H). assert (e = jn_events y) as -> by congruence. eapply notes_iff; [|exact (notes_one _ _ _ Y)]. intros n' r. split.
    + intros [-> ->]. exists x, p. auto.
    + intros (x' & q & E & G & -> & ->). assert (x' = x) as -> by congruence. rewrite (first_fun _ _ _ _ _ G F). auto.
  - assert (e = []) as -> by congruence. eapply notes_iff; [|exact notes_none]. intros n' r. split; [intros []|]. intros (x' & q & E & G & _). assert (x' = x) as -> by congruence.
    destruct G as (P & u & v & Eq & _). apply (F q); [rewrite Eq; apply in_elt|exact P].
Qed.
Definition thrown_in (cs : list exceptionspec) (n : string) (r : bool) : Prop := exists c, In c cs /\ n = xc_type c /\ r = true.
Lemma thrown_cons c cs x : tn f None (xc_type c) true = Ok x -> forall e, notes (thrown_in cs) e -> notes (thrown_in (c :: cs)) (jn_events x ++ e).
Proof.
  intros X e H. eapply notes_iff; [|exact (notes_app _ _ _ _ (notes_one _ _ _ X) H)]. intros n r. unfold thrown_in. cbn [In]. split.
  - intros [[-> ->]|(q & I & E)]; [exists c; auto|exists q; auto].
  - intros (q & [<- |I] & -> & ->); [left; auto|right; exists q; auto].
Qed.
Lemma thrown_nil : notes (thrown_in []) [].
Proof. eapply notes_iff; [|exact notes_none]. intros n r. split; [intros []|intros (p & [] & _)]. Qed.
Lemma tests_note cs : forall b s e an nu, entity_tests dec_text m o f b cs = Ok (s, e, an, nu) -> notes (thrown_in cs) e.
Proof.
  induction cs as [|c cs IH]; intros b s e an nu H; cbn [entity_tests] in H; [assert (e = []) as -> by congruence; exact thrown_nil|].
  apply rbind_Ok in H as (x & X & H). destruct (jn_text x =?s "ServiceException"); cbv zeta in H; apply rbind_Ok in H as ([[[s' e'] a'] n'] & T & H); apply IH in T;
    (assert (e = jn_events x ++ e') as -> by congruence); exact (thrown_cons _ _ _ X _ T).
Qed.
Lemma catches_note cs : forall s e, catches dec_text m o f cs = Ok (s, e) -> notes (thrown_in cs) e.
Proof.
  induction cs as [|c cs IH]; intros s e H; cbn [catches] in H; [assert (e = []) as -> by congruence; exact thrown_nil|].
  apply rbind_Ok in H as (x & X & H). apply rbind_Ok in H as ([s' e'] & T & H). apply ok_pair in H as [_ ->]. apply IH in T. exact (thrown_cons _ _ _ X _ T).
Qed.
Lemma errors_note h s e : handle_errors dec_text m o f h = Ok (s, e) -> notes (thrown_in (h_exceptions h)) e.
Proof.
  unfold handle_errors. destruct (jo_service_exception o); intros H; [|exact (catches_note _ _ _ H)]. apply rbind_Ok in H as ([[[s' e'] a] n] & T & H). apply ok_pair in H as [_ ->]. exact (tests_note _ _ _ _ _ _ T).
Qed.
Lemma answer_note n res impl en et x s e : answer_call o n res impl en et x = Ok (s, e) -> ~ In JInstant e.
Proof.
  unfold answer_call. destruct (xp_outputs x); [intros H; apply ok_pair in H as [_ ->]; intros []|]. intros H. apply rbind_Ok in H as ([w e'] & W & H). apply rbind_Ok in H as (hs & _ & H). apply ok_pair in H as [_ ->].
  destruct (_ || _)%bool; [apply ok_pair in W as [_ ->]; intros []|]. unfold json_wrapper in W. destruct (jo_immutable o); [apply rbind_Ok in W as (c & _ & W)|];
    destruct (et =?s "String"); apply ok_pair in W as [_ ->]; cbn; intuition discriminate.
Qed.
Lemma resource_note h s e : resource dec_text m o f h = Ok (s, e) -> notes (resource_names h) e.
Proof.
  unfold resource, resource_sig, resource_body. intros H. apply rbind_Ok in H as ([sg e1] & H1 & H). apply rbind_Ok in H as ([bd e2] & H2 & H). apply ok_pair in H as [_ ->].
  apply rbind_Ok in H1 as (a & A & H1). apply rbind_Ok in H1 as ([l e3] & Ps & H1). apply ok_pair in H1 as [_ ->]. rewrite A in H2. rewrite rbind_now in H2.
  apply rbind_Ok in H2 as (q & _ & H2). apply rbind_Ok in H2 as (q' & _ & H2). apply rbind_Ok in H2 as ([[n t] e4] & En & H2).
  destruct (h_expected h) as [x|] eqn:X; [|discriminate H2]. apply rbind_Ok in H2 as (i & I & H2). cbv zeta in H2. apply rbind_Ok in H2 as ([cl e5] & B & H2). apply rbind_Ok in H2 as ([er e6] & Er & H2). apply ok_pair in H2 as [_ ->].
  apply params_note in Ps. apply entity_note in En. apply errors_note in Er. apply answer_note in B.
  assert (B' : notes (fun _ _ => False) e5) by (split; [intros J; contradiction|intros (? & ? & ? & [] & _)]).
  eapply notes_iff; [|exact (notes_app _ _ _ _ Ps (notes_app _ _ _ _ En (notes_app _ _ _ _ B' Er)))]. intros n' r. split.
  - intros [(p & J & -> & ->)|[(x' & p & E & J & -> & ->)|[[]|(c & J & -> & ->)]]]; [apply rn_input, J|apply (rn_output h x'); assumption|apply rn_error, J].
  - intros [p J|x' p E J|c J]; [left; exists p; auto|right; left; exists x', p; auto|right; right; right; exists c; auto].
Qed.
Lemma resources_note hs : forall s e, pieces (resource dec_text m o f) hs = Ok (s, e) -> notes (fun n r => exists h, In h hs /\ resource_names h n r) e.
Proof.
  induction hs as [|h hs IH]; intros s e H; cbn [pieces] in H.
  - apply ok_pair in H as [_ ->]. eapply notes_iff; [|exact notes_none]. intros n r. split; [intros []|intros (p & [] & _)].
  - apply rbind_Ok in H as ([s1 e1] & H1 & H). apply rbind_Ok in H as ([s2 e2] & H2 & H). apply ok_pair in H as [_ ->].
    eapply notes_iff; [|exact (notes_app _ _ _ _ (resource_note _ _ _ H1) (IH _ _ H2))]. intros n r. cbn [In]. split.
    + intros [J|(q & I & J)]; [exists h; auto|exists q; auto].
    + intros (q & [<- |I] & J); [left; auto|right; exists q; auto].
Qed.
End FUEL.

Lemma join_lines l : join nl (l ++ [""]) = each line l.
Proof.
  induction l as [|x l IH]; [reflexivity|]. cbn [app each fold_right]. change (fold_right _ "" l) with (each line l). rewrite <- IH. unfold line. change newline with nl.
  cbn [join]. destruct (l ++ [""]) eqn:E; [destruct l; discriminate|]. rewrite append_assoc. reflexivity.
Qed.
Lemma import_ok : model_import o = imported (jo_model_package o).
Proof. unfold model_import, imported. destruct (string_dec (jo_model_package o) "") as [E|E]; [rewrite E; reflexivity|]. apply seqb_neq in E. rewrite E. reflexivity. Qed.
Lemma import_line : model_import o +++ nl = import_model (jo_model_package o).
Proof. rewrite import_ok. unfold imported, import_model, line. destruct (string_dec (jo_model_package o) ""); reflexivity. Qed.
Lemma main_ok service b : main_text o sv service b = each line (main_lines (imported (jo_model_package o)) (imported (sv_package sv)) service b).
Proof.
  unfold main_text. rewrite import_ok. assert (Q : (if sv_package sv =?s "" then "" else "import " +++ sv_package sv +++ ".*;") = imported (sv_package sv)).
  { unfold imported. destruct (string_dec (sv_package sv) "") as [E|E]; [rewrite E; reflexivity|]. apply seqb_neq in E. rewrite E. reflexivity. }
  rewrite Q. generalize (imported (jo_model_package o)) (imported (sv_package sv)). clear. intros a c. rewrite <- join_lines. destruct b; reflexivity.
Qed.
Lemma root_ok : root_path m = root_of sch.
Proof. unfold root_path, root_of. rewrite (model_schema sch m Hm). destruct (string_dec (sc_base sch) "") as [E|E]; [rewrite E; reflexivity|]. apply seqb_neq in E. rewrite E. reflexivity. Qed.

Lemma resource_mono (P Q : string -> bool -> jtype -> Prop) h r : (forall n b t, P n b t -> Q n b t) -> resource_shown P dec_text h r -> resource_shown Q dec_text h r.
Proof.
  intros H (x & X & M & Me & Pa & Ps & St & An & Hd & Hn & En & Er). exists x. repeat (split; [assumption|]). split; [revert Ps; apply forall2_imp; intros p q (A & B & C & D); repeat split; auto|].
  repeat (split; [assumption|]). split; [|revert Er; apply forall2_imp; intros c e [A B]; split; auto].
  destruct En as [(p & t & F & T & E)|En]; [left; exists p, t; auto|right; exact En].
Qed.
Lemma resource_ev h r : resource_shown jname_of dec_text h r -> ev (fun f => resource_shown (named_at f) dec_text h r).
Proof.
  intros (x & X & M & Me & Pa & Ps & St & An & Hd & Hn & En & Er).
  assert (V1 : ev (fun f => Forall2 (jparam_shown (named_at f) dec_text) (h_inputs h) (jr_params r))).
  { revert Ps. apply (ev_forall2 (fun p q f => jparam_shown (named_at f) dec_text p q)). intros p q (A & B & C & D). generalize (name_ev _ _ _ C). apply ev_mono. intros f N. split; [exact A|]. split; [exact B|]. split; [exact N|exact D]. }
  assert (V2 : ev (fun f => entity_shown (named_at f) (xp_outputs x) (jr_entity r))).
  { destruct En as [(p & t & F & T & E)|En]; [|apply ev_now; intros f; right; exact En]. generalize (name_ev _ _ _ T). apply ev_mono. intros f N. left. exists p, t. split; [exact F|]. split; [exact N|exact E]. }
  assert (V3 : ev (fun f => Forall2 (fun c e => named_at f (xc_type c) true (fst e) /\ snd e = xc_status c) (h_exceptions h) (jr_errors r))).
  { revert Er. apply (ev_forall2 (fun c e f => named_at f (xc_type c) true (fst e) /\ snd e = xc_status c)). intros c e [A B]. generalize (name_ev _ _ _ A). apply ev_mono. intros f N. split; [exact N|exact B]. }
  generalize (ev_and _ _ V1 (ev_and _ _ V2 V3)). apply ev_mono. intros f (U1 & U2 & U3). exists x. repeat (split; [assumption|]). exact U3.
Qed.
Lemma cap_large n c : go_capitalize n = Ok c <-> n <> "" /\ large_first n c.
Proof.
  split; [apply go_capitalize_spec|]. intros [N L]. rewrite (big_cap _ N). f_equal. symmetry. apply big_large, L.
Qed.
Notation rtext := (resource_text go_quote sprint (jo_immutable o) (jo_service_exception o) (jo_name o)).
Notation rshown f := (resource_shown (named_at f) dec_text).
Definition resources_body (service : string) (rs : list jresource) : string :=
  line "" +++ import_model (jo_model_package o) +++ line "import java.util.*;" +++ line "import java.time.Instant;" +++ line "import javax.inject.Inject;"
     +++ line "import javax.ws.rs.*;" +++ line "import javax.ws.rs.core.*;" +++ line "import static javax.ws.rs.core.Response.Status;"
     +++ line "import com.fasterxml.jackson.annotation.JsonInclude;" +++ line "import com.fasterxml.jackson.annotation.JsonInclude.Include;"
     +++ line "import com.fasterxml.jackson.databind.ObjectMapper;" +++ line "import com.fasterxml.jackson.databind.SerializationFeature;"
     +++ line "import com.fasterxml.jackson.databind.DeserializationFeature;" +++ line ""
     +++ line ("@Path(""" +++ root_of sch +++ """)") +++ line ("public class " +++ service +++ "Resources {") +++ line "    @Inject"
     +++ line ("    private " +++ service +++ " " +++ controller service +++ ";") +++ each rtext rs +++ line "" +++ line "" +++ line "}".
Lemma resources_ok f service rs : service <> "" -> (sc_http sch <> [] -> jo_name o <> "") -> Forall2 (rshown f) (sc_http sch) rs -> ret (resources_text dec_text m o f service) (resources_body service rs).
Proof.
  intros Ns Nn F. unfold resources_text, impl_name. rewrite (small_ok _ Ns). rewrite !rbind_now. rewrite (model_schema sch m Hm).
  assert (B : ret (pieces (resource dec_text m o f) (sc_http sch)) (each rtext rs)).
  { destruct (string_dec (jo_name o) "") as [Z|Z]; [|apply (pieces_ret _ _ _ _ _ (fun h r => resource_ok f h r Z) F)].
    inversion F as [E1 E2|h r l k R G E1 E2]; [exists []; split; [reflexivity|intros []]|]. destruct Nn; [rewrite <- E1; discriminate|exact Z]. }
  destruct B as (e & -> & N). rewrite rbind_now. cbv beta iota. exists e. split; [|exact N]. f_equal. f_equal. rewrite root_ok. unfold resources_body. rewrite <- import_line.
  unfold controller, line. change newline with nl. rewrite !append_assoc. reflexivity.
Qed.
Lemma ok_resources f service s e : resources_text dec_text m o f service = Ok (s, e) -> (sc_http sch <> [] -> jo_name o <> "") /\ (exists rs, Forall2 (rshown f) (sc_http sch) rs)
  /\ notes f (fun n r => exists h, In h (sc_http sch) /\ resource_names h n r) e.
Proof.
  unfold resources_text. intros H. apply rbind_Ok in H as (i & _ & H). apply rbind_Ok in H as ([b e'] & B & H). apply ok_pair in H as [_ ->]. rewrite (model_schema sch m Hm) in B. split; [|split].
  - destruct (sc_http sch) as [|h l]; [congruence|]. intros _. cbn [pieces] in B. apply rbind_Ok in B as ([s1 e1] & B & _). exact (proj1 (ok_resource _ _ _ _ B)).
  - revert B. apply (ret_pieces (rshown f)). intros h s' e0 R. exact (proj2 (ok_resource _ _ _ _ R)).
  - exact (resources_note _ _ _ _ B).
Qed.
Lemma stubs_ok service acs : Forall2 (fun h ac => method_named h (fst ac) (snd ac)) (sc_http sch) acs ->
  ret (stubs_text m o service) (line "" +++ line "// Stubs for an implementation of the service follow" +++ import_model (jo_model_package o) +++ line ""
     +++ line ("public class " +++ service +++ "Controller implements " +++ service +++ " {") +++ each (stub_text (jo_immutable o)) acs +++ line "" +++ line "}").
Proof.
  intros F. unfold stubs_text. rewrite (model_schema sch m Hm).
  assert (S : forall h ac, method_named h (fst ac) (snd ac) -> ret (stub o h) (stub_text (jo_immutable o) ac)).
  { intros h [a c] M. cbn [fst snd] in M. unfold stub, handler_sig, request_type, response_type. destruct (named_action _ _ _ M) as [A C]. repeat first [rewrite rbind_now|rewrite A|rewrite C].
    exists []. split; [|intros []]. f_equal. f_equal. unfold stub_text. cbn [fst snd]. unfold line. change newline with nl. destruct (jo_immutable o); rewrite !append_assoc; reflexivity. }
  destruct (pieces_ret _ _ _ _ _ S F) as (e & -> & N). rewrite rbind_now. cbv beta iota. exists e. split; [|exact N]. f_equal. f_equal. rewrite <- import_line. unfold line. change newline with nl. rewrite !append_assoc. reflexivity.
Qed.
Lemma from_piece_ok name p pkg st s : js_err st = false -> ret p s -> exists st' e, from_piece o name p pkg st = Ok st' /\ p = Ok (s, e) /\ adds st st' [(pkg, name, java_text (jo_header o) pkg s)] /\ js_err st' = false
  /\ (js_instant st' = true <-> js_instant st = true \/ In JInstant e).
Proof.
  intros E (e & -> & N). unfold from_piece. rewrite E. eexists _, e. split; [reflexivity|]. split; [reflexivity|]. pose proof (happens_no_error _ _ E N) as E1. destruct (write_adds o name s pkg _ E1) as [E2 A].
  pose proof (happens_spec e st) as (Fi & _ & _ & I & _). split; [|split; [exact E2|]].
  - destruct A as (_ & l & Fl & Ml). split; [exact E|]. exists l. split; [rewrite Fl, Fi; reflexivity|exact Ml].
  - unfold write_java. rewrite E1. cbn [js_instant]. exact I.
Qed.
Lemma ok_from_piece name p pkg st st' : js_err st = false -> from_piece o name p pkg st = Ok st' -> js_err st' = false -> exists s e, p = Ok (s, e).
Proof.
  intros E H E'. unfold from_piece in H. rewrite E in H. destruct p as [[s e]| | |]; [eauto| | |]; try discriminate H; assert (st' = happen st JError) as -> by congruence; discriminate E'.
Qed.

Definition server_out (instant : bool) (service : string) (rs : list jresource) : list jout :=
  server_files go_quote sprint (jo_immutable o) (jo_service_exception o) (sv_impl sv) (jo_header o) (jo_model_package o) (sv_package sv) (jo_name o) sch instant service rs.
Notation sshown := (server_shown dec_text (jo_instants o) (jo_name o) sch).
Lemma named_of f rs : Forall2 (rshown f) (sc_http sch) rs -> Forall2 (fun h ac => method_named h (fst ac) (snd ac)) (sc_http sch) (map (fun r => (jr_name r, jr_class r)) rs).
Proof. induction 1 as [|h r l k (x & _ & M & _) F IH]; constructor; [exact M|exact IH]. Qed.
Lemma service_some n s : n <> "" -> large_first n s -> s <> "".
Proof. intros N L. apply big_large in L. subst s. destruct n as [|c r]; [contradiction|]. cbn [big_first]. unfold upper1. destruct (is_ascii7 c); discriminate. Qed.
(** with the given fuel *)
Lemma server_at f st service rs : js_err st = false -> sc_name sch <> "" -> large_first (sc_name sch) service -> (sc_http sch <> [] -> jo_name o <> "") -> Forall2 (rshown f) (sc_http sch) rs ->
  exists st' b, create_server dec_text m o sv f st = Ok st' /\ js_err st' = false /\ adds st st' (server_out b service rs)
    /\ (b = true <-> js_instant st = true \/ exists n r x h, (In h (sc_http sch) /\ resource_names h n r) /\ tn f None n r = Ok x /\ In JInstant (jn_events x)).
Proof.
  intros E Ns L Nn F. unfold create_server. rewrite E, (model_schema sch m Hm), (proj2 (seqb_neq _ _) Ns). rewrite (proj2 (cap_large _ _) (conj Ns L)). rewrite rbind_now.
  destruct (from_piece_ok (service +++ "Resources") _ (sv_package sv) st _ E (resources_ok f service rs (service_some _ _ Ns L) Nn F)) as (s1 & e & -> & P & A1 & E1 & I1). rewrite rbind_now.
  apply ok_resources in P as (_ & _ & P). unfold notes in P.
  assert (B : js_instant s1 = true <-> js_instant st = true \/ exists n r x h, (In h (sc_http sch) /\ resource_names h n r) /\ tn f None n r = Ok x /\ In JInstant (jn_events x)).
  { rewrite I1, P. split; (intros [K|K]; [left; exact K|right]).
    - destruct K as (n & r & x & (h & K) & X). exists n, r, x, h. auto.
    - destruct K as (n & r & x & h & K & X). exists n, r, x. split; [exists h; exact K|exact X]. }
  unfold server_out, server_files. destruct (sv_impl sv).
  - destruct (from_piece_ok "Main" (Ok (main_text o sv service (js_instant s1), [])) "" s1 (main_text o sv service (js_instant s1)) E1) as (s2 & e2 & H2 & _ & A2 & E2 & _); [exists []; split; [reflexivity|intros []]|].
    rewrite H2. rewrite rbind_now. destruct (from_piece_ok (service +++ "Controller") _ "" s2 _ E2 (stubs_ok service _ (named_of f rs F))) as (s3 & e3 & -> & _ & A3 & E3 & _).
    exists s3, (js_instant s1). split; [reflexivity|]. split; [exact E3|]. split; [|exact B].
    rewrite main_ok in A2. exact (adds_app _ _ _ _ _ A1 (adds_app _ _ _ _ _ A2 A3)).
  - exists s1, (js_instant s1). split; [reflexivity|]. split; [exact E1|]. split; [exact A1|exact B].
Qed.
Theorem server_spec f st st' : js_err st = false -> create_server dec_text m o sv f st = Ok st' -> js_err st' = false ->
  exists service rs b, sshown service rs /\ adds st st' (server_out b service rs) /\ (b = true <-> js_instant st = true \/ uses_instant (jo_instants o) sch).
Proof.
  intros E H E'. assert (G : sc_name sch <> "" /\ exists service rs, large_first (sc_name sch) service /\ (sc_http sch <> [] -> jo_name o <> "") /\ Forall2 (rshown f) (sc_http sch) rs).
  { unfold create_server in H. rewrite E, (model_schema sch m Hm) in H. destruct (sc_name sch =?s "") eqn:N; [discriminate|]. apply seqb_neq in N. split; [exact N|]. apply rbind_Ok in H as (service & C & H). apply cap_large in C as [_ L].
    apply rbind_Ok in H as (s1 & H1 & H). assert (E1 : js_err s1 = false).
    { destruct (js_err s1) eqn:E1; [|reflexivity]. destruct (sv_impl sv); [|congruence]. apply rbind_Ok in H as (s2 & H2 & H). unfold from_piece in H2. rewrite E1 in H2. assert (s2 = s1) as -> by congruence. unfold from_piece in H. rewrite E1 in H. congruence. }
    destruct (ok_from_piece _ _ _ _ _ E H1 E1) as (s & e & P). apply ok_resources in P as (Nn & (rs & F) & _). exists service, rs. auto. }
  destruct G as (N & service & rs & L & Nn & F). destruct (server_at f st service rs E N L Nn F) as (s & b & K & _ & A & B). rewrite K in H. assert (st' = s) as -> by congruence.
  exists service, rs, b. split; [|split; [exact A|]].
  - split; [exact N|]. split; [exact L|]. split; [exact Nn|]. revert F. apply forall2_imp. intros h r. apply resource_mono. intros n t y [_ J]. exact J.
  - rewrite B. split; (intros [J|J]; [left; exact J|right]).
    + destruct J as (n & r & x & h & (I & R) & X & J). exists h, n, r. split; [exact I|]. split; [exact R|]. apply (name_asks true dec_text sch m Hm o f _ _ _ _ X).
      apply (name_instant _ _ _ _ _ _ _ _ X) in J. exists (JImport "java.time.Instant"). split; [exact J|reflexivity].
    + destruct J as (h & n & r & I & R & J).
      assert (Z : exists x, tn f None n r = Ok x).
      { clear -F I R. assert (Q : exists k, rshown f h k) by (clear R; induction F as [|h' k l ks Q F IH]; [destruct I|destruct I as [<- |I]; [exists k; exact Q|exact (IH I)]]).
        destruct Q as (k & x & X & _ & _ & _ & Ps & _ & _ & _ & _ & En & Er). destruct R as [p J|x' p X' J|c J].
        - destruct (forall2_left _ _ _ _ Ps J) as (q & _ & _ & ((y & Y & _) & _) & _). exists y. exact Y.
        - rewrite X in X'. injection X' as <-. destruct En as [(p' & t & G & ((y & Y & _) & _) & _)|(G & _)]; [rewrite (first_fun _ _ _ _ _ J G); exists y; exact Y|].
          destruct J as (Pp & u & v & E & _). destruct (G p); [rewrite E; apply in_elt|exact Pp].
        - destruct (forall2_left _ _ _ _ Er J) as (q & ((y & Y & _) & _) & _). exists y. exact Y. }
      destruct Z as [x X]. exists n, r, x, h. split; [auto|]. split; [exact X|]. apply (name_instant _ _ _ _ _ _ _ _ X).
      apply (name_asks true dec_text sch m Hm o f _ _ _ _ X) in J. destruct J as (e & J & K'). destruct e; cbn in K'; try discriminate K'. injection K' as ->. exact J.
Qed.
Theorem server_fine service rs : sshown service rs -> ev (fun f => forall st, js_err st = false -> sound (create_server dec_text m o sv f st)).
Proof.
  intros (N & L & Nn & F). assert (V : ev (fun f => Forall2 (rshown f) (sc_http sch) rs)) by (revert F; apply (ev_forall2 (fun h r f => rshown f h r)); apply resource_ev).
  revert V. apply ev_mono. intros f G st E. destruct (server_at f st service rs E N L Nn G) as (s & b & K & E' & _). exists s. auto.
Qed.

(** ** The client *)
Section CFUEL.
Context (f : nat).
Notation at_f := (named_at f).
Definition header_at (p : paramspec) (x : string * string * jtype) : Prop := fst x = (fd_name (ps_field p), ps_header p) /\ at_f (param_type p) true (snd x).
Lemma reads_ok ps xs : Forall2 header_at (header_outputs ps) xs -> ret (read_headers dec_text m o f ps) (each read_text xs).
Proof.
  revert xs. induction ps as [|p ps IH]; intros xs F; cbn [header_outputs filter] in F.
  - inversion F. exists []. split; [reflexivity|intros []].
  - unfold ret. cbn [read_headers]. destruct (string_dec (ps_header p) "") as [E|E].
    + rewrite E. cbn [String.eqb]. rewrite rbind_now. cbv beta iota. destruct (IH xs F) as (e & -> & N). rewrite rbind_now. cbv beta iota. exists e. split; [reflexivity|exact N].
    + apply seqb_neq in E. rewrite E. inversion F as [|p' [[n k] t] l xs' [Hx ((y & Y & T) & _)] G]. subst. cbn [fst snd] in Hx, Y, T. unfold param_type in Y. rewrite Y. rewrite rbind_now. cbv zeta. rewrite rbind_now. cbv beta iota.
      destruct (IH xs' G) as (e & -> & N). rewrite rbind_now. cbv beta iota. eexists. split; [|apply in_e; split; [exact (name_no_error _ _ _ _ _ _ _ _ Y)|exact N]].
      f_equal. f_equal. cbn [each fold_right]. f_equal. unfold read_text. cbv zeta. assert (n = fd_name (ps_field p) /\ k = ps_header p) as [-> ->] by (split; congruence). rewrite T. unfold line. change newline with nl.
      destruct (string_dec (jtype_text t) "Instant") as [Q|Q]; [rewrite Q; cbn [String.eqb Ascii.eqb Bool.eqb]|apply seqb_neq in Q; rewrite Q]; rewrite !append_assoc; reflexivity.
Qed.
Lemma ok_reads ps : forall s e, read_headers dec_text m o f ps = Ok (s, e) -> exists xs, Forall2 header_at (header_outputs ps) xs.
Proof.
  induction ps as [|p ps IH]; intros s e H; [exists []; constructor|]. cbn [read_headers] in H. apply rbind_Ok in H as ([s1 e1] & H1 & H). apply rbind_Ok in H as ([s2 e2] & H2 & _). destruct (IH _ _ H2) as [xs F].
  cbn [header_outputs filter]. destruct (string_dec (ps_header p) "") as [E|E]; [exists xs; exact F|]. apply seqb_neq in E. rewrite E in H1. apply rbind_Ok in H1 as (y & Y & _). apply name_at in Y as (t & T & _).
  exists ((fd_name (ps_field p), ps_header p, t) :: xs). constructor; [split; [reflexivity|exact T]|exact F].
Qed.
Lemma target_ok ps ts : target_shown ps ts -> (forall p, In p ps -> fd_name (ps_field p) <> "") -> target_calls ps = Ok (each target_text ts).
Proof.
  induction 1 as [|p l k P T IH|p l k P Q T IH|p l k P Q T IH]; intros N; [reflexivity|..]; cbn [target_calls]; unfold get_call; rewrite (big_cap _ (N p (or_introl eq_refl))); rewrite !rbind_now; rewrite P, (IH (fun q I => N q (or_intror I))); rewrite rbind_now; cbv zeta.
  - apply f_equal. cbn [each fold_right]. unfold target_text, get. cbn [fst snd]. unfold line. change newline with nl. rewrite !append_assoc. reflexivity.
  - apply seqb_neq in Q. rewrite Q. apply f_equal. cbn [each fold_right]. unfold target_text, get. cbn [fst snd]. unfold line. change newline with nl. rewrite !append_assoc. reflexivity.
  - rewrite Q. reflexivity.
Qed.
Lemma target_some ps : exists ts, target_shown ps ts.
Proof.
  induction ps as [|p ps [ts T]]; [exists []; constructor|]. destruct (ps_path p) eqn:P; [eexists; apply ts_path; eassumption|].
  destruct (string_dec (ps_query p) "") as [Q|Q]; eexists; [apply ts_other|apply ts_query]; eassumption.
Qed.
Lemma ok_target ps : forall s, target_calls ps = Ok s -> forall p, In p ps -> fd_name (ps_field p) <> "".
Proof.
  induction ps as [|p ps IH]; intros s H q I; [destruct I|]. cbn [target_calls] in H. apply rbind_Ok in H as (g & G & H). cbv zeta in H. apply rbind_Ok in H as (r & R & _).
  destruct I as [<- |I]; [|exact (IH _ R q I)]. intros N. rewrite N in G. discriminate.
Qed.
Lemma sends_ok ps : (forall p, In p ps -> fd_name (ps_field p) <> "") ->
  request_headers ps = Ok (each (fun h => line "" +++ "            .header(""" +++ snd h +++ """, " +++ get (fst h) +++ ")") (map (fun p => (fd_name (ps_field p), ps_header p)) (header_outputs ps))).
Proof.
  induction ps as [|p ps IH]; intros N; [reflexivity|]. cbn [request_headers header_outputs filter]. specialize (IH (fun q I => N q (or_intror I))). destruct (string_dec (ps_header p) "") as [E|E].
  - rewrite E. cbn [String.eqb]. rewrite rbind_now, IH. reflexivity.
  - apply seqb_neq in E. rewrite E. unfold get_call. rewrite (big_cap _ (N p (or_introl eq_refl))). rewrite !rbind_now. rewrite IH. rewrite rbind_now. apply f_equal. cbn [map each fold_right fst snd]. unfold get, line. change newline with nl. rewrite !append_assoc. reflexivity.
Qed.
(** what is sent *)
Lemma body_first ps : match find JavaModel.body_input ps with Some x => first java_body ps x | None => forall x, In x ps -> ~ java_body x end.
Proof. exact (find_first JavaModel.body_input java_body ps body_iff). Qed.
Lemma sent_ok h b : sent h b -> (forall p, In p (h_inputs h) -> fd_name (ps_field p) <> "") ->
  sent_call h = Ok (match b with Some n => "Entity.entity(" +++ get n +++ ", MediaType.APPLICATION_JSON)" | None => "" end).
Proof.
  intros [[M S]|[M ->]] N; unfold sent_call.
  - rewrite (proj2 (str_mem_In _ _) M). unfold action_info. assert (str_mem (h_method h) ["POST"; "PUT"] = true) as -> by (apply str_mem_In; cbn in M |- *; tauto).
    pose proof (body_first (h_inputs h)) as F. rewrite rbind_now. destruct (find _ _) as [p|].
    + destruct S as [(q & G & ->)|(G & _)]; [|destruct F as (P & u & v & E & _); destruct (G p); [rewrite E; apply in_elt|exact P]]. rewrite (first_fun _ _ _ _ _ G F).
      unfold param_info, get_call. cbv beta iota. assert (Ip : In p (h_inputs h)) by (destruct F as (_ & u & v & -> & _); apply in_elt). rewrite (big_cap _ (N p Ip)). rewrite !rbind_now. unfold get. rewrite !append_assoc. reflexivity.
    + destruct S as [(q & (P & u & v & E & _) & _)|(_ & ->)]; [destruct (F q); [rewrite E; apply in_elt|exact P]|]. reflexivity.
  - destruct (str_mem (h_method h) ["PUT"; "POST"]) eqn:E.
    + apply str_mem_In in E. exfalso. destruct M as [M|[M|[]]]; rewrite <- M in E; cbn in E; intuition discriminate.
    + rewrite (proj2 (str_mem_In _ _) M). reflexivity.
Qed.
Lemma ok_sent h s : sent_call h = Ok s -> exists b, sent h b.
Proof.
  unfold sent_call. destruct (str_mem (h_method h) ["PUT"; "POST"]) eqn:E.
  - apply str_mem_In in E. intros _. pose proof (body_first (h_inputs h)) as F. destruct (find _ _) as [p|]; [exists (Some (fd_name (ps_field p))); left; split; [exact E|left; exists p; auto]|exists (Some "anonymous"); left; split; [exact E|right; auto]].
  - destruct (str_mem (h_method h) ["GET"; "DELETE"]) eqn:E'; [|discriminate]. apply str_mem_In in E'. intros _. exists None. right. auto.
Qed.
(** what comes back *)
Notation eshown outs e := ((exists p t, first plain_output outs p /\ at_f (param_type p) true t /\ e = if string_dec (jtype_text t) "void" then None else Some (fd_name (ps_field p), t))
         \/ (forall p, In p outs -> ~ plain_output p) /\ e = None).
Lemma reads_names ps xs : Forall2 header_at (header_outputs ps) xs ->
  fold_right (fun p acc => (if ps_header p =?s "" then "" else "                ." +++ fd_name (ps_field p) +++ "(" +++ fd_name (ps_field p) +++ ")" +++ nl) +++ acc) "" ps = each (fun x => set_text (fst (fst x))) xs.
Proof.
  revert xs. induction ps as [|p ps IH]; intros xs F; cbn [header_outputs filter] in F.
  - inversion F. reflexivity.
  - cbn [fold_right]. destruct (string_dec (ps_header p) "") as [E|E].
    + rewrite E. cbn [String.eqb]. rewrite (IH xs F). reflexivity.
    + apply seqb_neq in E. rewrite E. inversion F as [|p' [[n k] t] l xs' [Hx _] G]. subst. rewrite (IH xs' G). cbn [each fold_right fst]. cbn [fst] in Hx. assert (n = fd_name (ps_field p)) as -> by congruence.
      unfold set_text, line. change newline with nl. rewrite !append_assoc. reflexivity.
Qed.
Notation cshown := (call_shown at_f).
Definition answer_body (cls : string) (a : option (option (string * jtype) * list (string * string * jtype))) : string :=
  match a with
  | None => line "            return null; //shoudn't this be void?!"
  | Some (entity, headers) =>
      match entity with Some (n, t) => line ("            " +++ jtype_text t +++ " " +++ n +++ " = response.readEntity(" +++ jtype_text t +++ ".class);") | None => "" end
      +++ each read_text headers +++ line ("            return " +++ cls +++ "Response.builder()")
      +++ match entity with Some (n, _) => set_text n | None => "" end +++ each (fun x => set_text (fst (fst x))) headers +++ line "                .build();"
  end.
Notation call_answer := (answer_shown at_f).
Lemma answer_ok h x a c : h_expected h = Some x -> call_answer (xp_outputs x) a -> (xp_outputs x <> [] -> h_name h <> "" /\ large_first (h_name h) c) -> ret (answer_read dec_text m o f h x) (answer_body c a).
Proof.
  intros X A B. unfold answer_read. destruct A as [[O ->]|(O & en & hs & -> & En & Hs)].
  - rewrite O. exists []. split; [reflexivity|intros []].
  - destruct (B O) as [Nh L]. clear B.
    destruct (entity_ok f h x (fun n t => match en with Some (n', t') => (t =?s "void") = false /\ n' = n /\ jtype_text t' = t | None => t = "void" end) X) as (n & t & e1 & E1 & N1 & K).
    { destruct En as [(p & t & F & T & ->)|(G & ->)]; [left; exists p, t; split; [exact F|]; split; [exact T|]|right; auto].
      destruct (string_dec (jtype_text t) "void") as [V|V]; [exact V|]. apply seqb_neq in V. auto. }
    destruct (reads_ok _ _ Hs) as (e2 & E2 & N2).
    destruct (xp_outputs x) as [|y ys] eqn:Ex; [contradiction|]. rewrite <- Ex in *. clear y ys Ex. rewrite E1. rewrite rbind_now. cbv beta iota. rewrite E2. rewrite rbind_now. cbv beta iota.
    unfold response_type. rewrite (proj2 (cap_large _ _) (conj Nh L)). rewrite !rbind_now. exists (e1 ++ e2). split; [|apply in_e; auto]. f_equal. f_equal. rewrite (reads_names _ _ Hs). unfold answer_body.
    destruct en as [[n' t']|].
    + destruct K as (V & -> & <-). rewrite V. unfold set_text, line. change newline with nl. rewrite !append_assoc. reflexivity.
    + rewrite K. cbn [String.eqb Ascii.eqb Bool.eqb]. unfold line. change newline with nl. rewrite !append_assoc. reflexivity.
Qed.
Lemma ok_answer h x s e : h_expected h = Some x -> answer_read dec_text m o f h x = Ok (s, e) -> (exists a, call_answer (xp_outputs x) a) /\ exists c, xp_outputs x <> [] -> h_name h <> "" /\ large_first (h_name h) c.
Proof.
  intros X H. unfold answer_read in H. destruct (xp_outputs x) as [|y ys] eqn:Ex; [split; [exists None; left; auto|exists ""; congruence]|]. rewrite <- Ex in *.
  assert (O : xp_outputs x <> []) by (rewrite Ex; discriminate). clear y ys Ex.
  apply rbind_Ok in H as ([[n t] e1] & En & H). apply rbind_Ok in H as ([s2 e2] & Rd & H). apply rbind_Ok in H as (r & R & _). unfold response_type in R. apply rbind_Ok in R as (c & C & _). apply cap_large in C.
  apply ok_reads in Rd as [hs Hs]. apply (ok_entity f h x _ _ _ X) in En. split; [|exists c; intros _; exact C].
  destruct En as [(p & t' & F & T)|G].
  - eexists. right. split; [exact O|]. eexists _, hs. split; [reflexivity|]. split; [left; exists p, t'; split; [exact F|]; split; [exact T|reflexivity]|exact Hs].
  - eexists. right. split; [exact O|]. exists None, hs. split; [reflexivity|]. split; [right; auto|exact Hs].
Qed.
Notation ctext := (call_text sprint).
Lemma call_ok h c : cshown h c -> ret (client_method dec_text m o f h) (ctext c).
Proof.
  intros (x & X & M & Me & Pa & Nn & Tg & Hd & Se & St & An & Bu & Er). unfold client_method, handler_sig, request_type, response_type, client_body. destruct (named_action _ _ _ M) as [A C].
  rewrite A. rewrite !rbind_now. rewrite C. rewrite !rbind_now. rewrite (target_ok _ _ Tg Nn), (sends_ok _ Nn), (sent_ok _ _ Se Nn). rewrite !rbind_now. rewrite X.
  destruct (answer_ok h x _ _ X An Bu) as (e & -> & N). rewrite rbind_now. cbv beta iota. rewrite rbind_now. cbv beta iota. exists e. split; [|exact N]. f_equal. f_equal.
  assert (P : path_part (h_path h) (route_path h)) by apply route_part. rewrite (path_part_fun _ _ _ P Pa). unfold call_text. rewrite Me, Hd, St, Er. fold (answer_body (jc_built c) (jc_answer c)).
  assert (Fold : fold_right (fun c acc => "        case " +++ sprint (xc_status c) +++ ":" +++ nl +++ "            throw response.readEntity(" +++ xc_type c +++ ".class);" +++ nl +++ acc) "" (h_exceptions h)
    = each (fun e => line ("        case " +++ sprint (fst e) +++ ":") +++ line ("            throw response.readEntity(" +++ snd e +++ ".class);")) (map (fun e => (xc_status e, xc_type e)) (h_exceptions h))).
  { generalize (h_exceptions h). clear. intros l. induction l as [|c l IH]; [reflexivity|]. cbn [fold_right map each fst snd]. change (fold_right _ "" (map _ l)) with (each (fun e : Z * string => line ("        case " +++ sprint (fst e) +++ ":") +++ line ("            throw response.readEntity(" +++ snd e +++ ".class);")) (map (fun e => (xc_status e, xc_type e)) l)).
    rewrite IH. unfold line. change newline with nl. rewrite !append_assoc. reflexivity. }
  rewrite Fold. clear Fold. unfold line. change newline with nl. rewrite !append_assoc. reflexivity.
Qed.
Lemma ok_call h s e : client_method dec_text m o f h = Ok (s, e) -> exists c, cshown h c.
Proof.
  unfold client_method, client_body. intros H. apply rbind_Ok in H as (sg & Sg & H). apply rbind_Ok in H as ([b e'] & B & _). apply sig_spec in Sg as (a & c & M & _).
  apply rbind_Ok in B as (tg & Tg & B). apply rbind_Ok in B as (hd & Hd & B). apply rbind_Ok in B as (se & Se & B). destruct (h_expected h) as [x|] eqn:X; [|discriminate B]. apply rbind_Ok in B as ([an e1] & An & _).
  pose proof (ok_target _ _ Tg) as Nn. apply ok_sent in Se as [bo Se]. apply (ok_answer h x _ _ X) in An as [[an' An] [bu Bu]]. destruct (target_some (h_inputs h)) as [ts Ts].
  exists (mkJC (h_method h) (route_path h) a c ts (map (fun p => (fd_name (ps_field p), ps_header p)) (header_outputs (h_inputs h))) bo (xp_status x) an' bu (map (fun e => (xc_status e, xc_type e)) (h_exceptions h))).
  exists x. split; [exact X|]. split; [exact M|]. split; [reflexivity|]. split; [apply route_part|]. split; [exact Nn|]. split; [exact Ts|]. split; [reflexivity|]. split; [exact Se|]. split; [reflexivity|]. split; [exact An|]. split; [exact Bu|reflexivity].
Qed.
End CFUEL.
Lemma call_mono (P Q : string -> bool -> jtype -> Prop) h c : (forall n b t, P n b t -> Q n b t) -> call_shown P h c -> call_shown Q h c.
Proof.
  intros H (x & X & M & Me & Pa & Nn & Tg & Hd & Se & St & An & Bu & Er). exists x. repeat (split; [assumption|]). split; [|split; assumption].
  destruct An as [An|(O & en & hs & E & En & Hs)]; [left; exact An|]. right. split; [exact O|]. exists en, hs. split; [exact E|]. split.
  - destruct En as [(p & t & F & T & K)|En]; [left; exists p, t; auto|right; exact En].
  - revert Hs. apply forall2_imp. intros p k [U V]. auto.
Qed.
Lemma call_ev h c : call_shown jname_of h c -> ev (fun f => call_shown (named_at f) h c).
Proof.
  intros (x & X & M & Me & Pa & Nn & Tg & Hd & Se & St & An & Bu & Er).
  assert (V : ev (fun f => answer_shown (named_at f) (xp_outputs x) (jc_answer c))).
  { destruct An as [An|(O & en & hs & E & En & Hs)]; [apply ev_now; intros f; left; exact An|].
    assert (V1 : ev (fun f => Forall2 (fun p x => fst x = (fd_name (ps_field p), ps_header p) /\ named_at f (param_type p) true (snd x)) (header_outputs (xp_outputs x)) hs)).
    { revert Hs. apply (ev_forall2 (fun p x f => fst x = (fd_name (ps_field p), ps_header p) /\ named_at f (param_type p) true (snd x))). intros p k [U V]. generalize (name_ev _ _ _ V). apply ev_mono. intros f N. split; [exact U|exact N]. }
    destruct En as [(p & t & F & T & K)|En].
    - generalize (ev_and _ _ (name_ev _ _ _ T) V1). apply ev_mono. intros f [N G]. right. split; [exact O|]. exists en, hs. split; [exact E|]. split; [left; exists p, t; split; [exact F|]; split; [exact N|exact K]|exact G].
    - revert V1. apply ev_mono. intros f G. right. split; [exact O|]. exists en, hs. split; [exact E|]. split; [right; exact En|exact G]. }
  revert V. apply ev_mono. intros f A. exists x. repeat (split; [assumption|]). assumption.
Qed.
Definition client_out (service : string) (cs : list jcall) : list jout :=
  client_files sprint (jo_header o) (jo_model_package o) (sv_client_package sv) sch service cs.
Notation cshown := (client_shown (jo_instants o) sch).
Lemma client_at f st service cs : js_err st = false -> sc_name sch <> "" -> large_first (sc_name sch) service -> Forall2 (call_shown (named_at f)) (sc_http sch) cs ->
  exists st', create_client dec_text m o sv f st = Ok st' /\ js_err st' = false /\ adds st st' (client_out service cs).
Proof.
  intros E Ns L F. unfold create_client. rewrite E, (model_schema sch m Hm). rewrite (proj2 (cap_large _ _) (conj Ns L)). rewrite rbind_now.
  destruct (write_adds o "ClientConfig" config_text (sv_client_package sv) st E) as [E1 A1].
  assert (T : ret (client_text dec_text m o f service) (line "" +++ import_model (jo_model_package o) +++ line "import java.time.Instant;" +++ line "import javax.ws.rs.client.Client;" +++ line "import javax.ws.rs.client.ClientBuilder;"
     +++ line "import javax.ws.rs.client.Entity;" +++ line "import javax.ws.rs.client.WebTarget;" +++ line "import javax.ws.rs.client.Invocation;"
     +++ line "import javax.ws.rs.core.MediaType;" +++ line "import javax.ws.rs.core.Response;" +++ line "import javax.ws.rs.WebApplicationException;" +++ line ""
     +++ line ("public class " +++ service +++ "Client implements " +++ service +++ " {") +++ line "    private static Client client = ClientBuilder.newClient();"
     +++ line ("    private static final String base = """ +++ root_of sch +++ """;") +++ line "    private ClientConfig config;" +++ line ""
     +++ line ("    public " +++ service +++ "Client(ClientConfig conf) {") +++ line "        config = conf;" +++ line "    }"
     +++ each (call_text sprint) cs +++ line "" +++ line "}")).
  { unfold client_text. rewrite (model_schema sch m Hm). destruct (pieces_ret _ _ _ _ _ (call_ok f) F) as (e & -> & N). rewrite rbind_now. cbv beta iota. exists e. split; [|exact N]. f_equal. f_equal. rewrite root_ok, <- import_line.
    unfold line. change newline with nl. rewrite !append_assoc. reflexivity. }
  destruct (from_piece_ok (service +++ "Client") _ (sv_client_package sv) _ _ E1 T) as (s2 & e & -> & _ & A2 & E2 & _). exists s2. split; [reflexivity|]. split; [exact E2|]. exact (adds_app _ _ _ _ _ A1 A2).
Qed.
Theorem client_spec f st st' : js_err st = false -> create_client dec_text m o sv f st = Ok st' -> js_err st' = false ->
  exists service cs, cshown service cs /\ adds st st' (client_out service cs).
Proof.
  intros E H E'. assert (G : sc_name sch <> "" /\ exists service cs, large_first (sc_name sch) service /\ Forall2 (call_shown (named_at f)) (sc_http sch) cs).
  { unfold create_client in H. rewrite E, (model_schema sch m Hm) in H. apply rbind_Ok in H as (service & C & H). apply cap_large in C as [N L]. split; [exact N|].
    destruct (write_adds o "ClientConfig" config_text (sv_client_package sv) st E) as [E1 _].
    destruct (ok_from_piece _ _ _ _ _ E1 H E') as (s & e & P). unfold client_text in P. apply rbind_Ok in P as ([b e1] & B & _). rewrite (model_schema sch m Hm) in B.
    apply (ret_pieces (call_shown (named_at f)) _ _ (fun h s e => ok_call f h s e)) in B as [cs F]. exists service, cs. auto. }
  destruct G as (N & service & cs & L & F). destruct (client_at f st service cs E N L F) as (s & K & _ & A). rewrite K in H. assert (st' = s) as -> by congruence.
  exists service, cs. split; [|exact A]. split; [exact N|]. split; [exact L|]. revert F. apply forall2_imp. intros h r. apply call_mono. intros n t y [_ J]. exact J.
Qed.
Theorem client_fine service cs : cshown service cs -> ev (fun f => forall st, js_err st = false -> sound (create_client dec_text m o sv f st)).
Proof.
  intros (N & L & F). assert (V : ev (fun f => Forall2 (call_shown (named_at f)) (sc_http sch) cs)) by (revert F; apply (ev_forall2 (fun h r f => call_shown (named_at f) h r)); apply call_ev).
  revert V. apply ev_mono. intros f G st E. destruct (client_at f st service cs E N L G) as (s & K & E' & _). exists s. auto.
Qed.
End SERVICE.
