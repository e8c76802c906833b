(** The text of a generated Java class is that of a class which shows its type. *)
From Verif Require Import GoStr Outcome Value Schema Scalars Model Misc Generator Golang GoModel GoServer OpenApi Java JavaModel
  SpecTime SpecMisc SpecModel SpecPV SpecTrace SpecGo SpecJava ModelFacts PVFacts TraceFacts GenFacts GoModelFacts GoText JavaFacts.
From Coq Require Import Lia Permutation.

Lemma ok_pair {E A B} (a c : A) (b d : B) : @Ok E (A * B) (a, b) = Ok (c, d) -> c = a /\ d = b.
Proof. intros H. injection H as -> ->. auto. Qed.
Definition java_comment (i : string) (c : Z) (s : string) : string := format_comment i "// " s c false.

Section TEXT.
Context (dec_text : decimal -> string) (sch : schema) (m : model) (Hm : new_model sch = Ok m) (o : jopts)
        (fuel : nat) (ord : list string -> list string) (Hord : forall l, Permutation (ord l) l).
Notation use := (java_use sch (jo_instants o)).
Notation atext := (anno_text go_quote dec_text sprint).
Notation un := (use_name dec_text m o fuel).
Notation ctext := (class_text java_comment go_quote dec_text sprint (jo_lombok o) (jo_immutable o) (jo_json o)).
Notation cstruct := (create_struct dec_text m o fuel ord).
Notation shown_slot := (slot_shown sch (jo_instants o)).
Notation shown_struct := (struct_shown sch (jo_instants o) (jo_lombok o)).
Notation shown_inner := (inner_shown sch (jo_instants o) (jo_lombok o)).
Notation shown_nested := (nested_shown sch (jo_instants o) (jo_lombok o)).

Lemma note_text i c : comment_text i c = note java_comment i c.
Proof. unfold comment_text, note, java_comment. destruct (string_dec c "") as [->|N]; [reflexivity|]. now rewrite (proj2 (seqb_neq _ _) N). Qed.
Lemma cap_big n c : go_capitalize n = Ok c -> n <> "" /\ c = big_first n.
Proof. destruct n; [discriminate|]. cbn. intros H. injection H as <-. split; [discriminate|reflexivity]. Qed.
Lemma big_cap n : n <> "" -> go_capitalize n = Ok (big_first n).
Proof. now destruct n. Qed.
Lemma big_large n c : large_first n c <-> c = big_first n.
Proof. rewrite large_first_iff. change (capitalize n) with (big_first n). split; congruence. Qed.

(** a member and what the generator says about its type *)
Definition fits (n c : string) (r : bool) (ts : typespec) (x : jname) (k : jmember) : Prop :=
  shown_slot (n, c, r, ts) k /\ jm_name k = n /\ jm_comment k = c /\ jm_optional k = negb r /\ jn_annos x = map atext (jm_annos k) /\ jn_text x = jtype_text (jm_arg k)
  /\ jm_stamp k = ((ts_type ts =?s "Timestamp") && jo_instants o)%bool
  /\ (jn_anon x = None /\ ~ in_place ts /\ jtype_text (jm_type k) = jn_text x
      \/ jn_anon x = Some ts /\ in_place ts /\ n <> "" /\ jtype_text (jm_type k) = big_first n).

Lemma struct_defined : defines sch "Struct" (ts_of "Struct").
Proof. exists (mkTD "Struct" "" [] (ts_of "Struct")). split; [left; split; [cbn; tauto|reflexivity]|reflexivity]. Qed.
Lemma use_struct ts r : use ts "Struct" r (JT "Struct") (must r).
Proof.
  eapply ju_class; [exact opaque_struct|exact struct_defined| |]; cbn; intuition discriminate.
Qed.
Lemma name_fits n c r ts x : un ts r = Ok x -> (in_place ts -> n <> "") -> exists k, fits n c r ts x k.
Proof.
  intros H Hn. apply (name_shows dec_text sch m Hm o) in H as (t & a & U & T & A & N).
  destruct (string_dec (ts_type ts) "Struct") as [E|E].
  - rewrite E in U, N. destruct (use_one dec_text sch m Hm o _ _ _ _ _ _ _ U (use_struct (Some ts) r)) as [Et Ea].
    exists (mkJM n c (negb r) (must r) (JT (big_first n)) (JT "Struct") false). unfold fits. cbn [jm_name jm_comment jm_optional jm_annos jm_arg jm_type jm_stamp jtype_text].
    rewrite E, A, T, Et, Ea, N. cbn [jtype_text]. repeat split; try reflexivity.
    + cbn [slot_shown]. apply ms_nested; [exact E|apply Hn; exact E|now apply big_large].
    + right. repeat split; [exact E|apply Hn; exact E].
  - exists (mkJM n c (negb r) a t t (if string_dec (ts_type ts) "Timestamp" then jo_instants o else false)). unfold fits. cbn [jm_name jm_comment jm_optional jm_annos jm_arg jm_type jm_stamp].
    repeat split; try assumption.
    + cbn [slot_shown]. apply ms_plain; assumption.
    + destruct (string_dec (ts_type ts) "Timestamp") as [->|Nt]; [reflexivity|]. now rewrite (proj2 (seqb_neq _ _) Nt).
    + left. rewrite N. unfold anon_of. destruct (string_dec (ts_type ts) "Struct"); [contradiction|]. repeat split; [exact E|symmetry; exact T].
Qed.
Lemma fits_uses n c r ts x k : fits n c r ts x k -> shown_slot (n, c, r, ts) k.
Proof. intros [H _]. exact H. Qed.

(** ** The declarations of the members *)
Section MEMBERS.
Context {A : Type} (name comment : A -> string) (before : A -> string) (decl : A -> string -> string) (spec : A -> typespec) (required keyword : A -> bool) (cls indent : string).
Context (tx : jmember -> string).
Definition meets (a : A) (k : jmember) : Prop := exists x, un (spec a) (required a) = Ok x /\ fits (name a) (comment a) (required a) (spec a) x k.
Context (Htx : forall a k, meets a k -> before a +++ member_line indent (map atext (jm_annos k)) (decl a (jtype_text (jm_type k))) = tx k).
Definition nest_of (a : A) (c : string) : Prop := in_place (spec a) /\ c = big_first (name a).
(** the map of the inner classes after the members [l] *)
Definition holds (l : list (A * piece)) (ns : inners) : Prop :=
  NoDup (map fst ns) /\ forall k p, assoc k ns = Some p <-> exists a x b, l = a ++ (x, p) :: b /\ nest_of x k /\ forall y q, In (y, q) b -> ~ nest_of y k.

Lemma holds_nil : holds [] [].
Proof. split; [constructor|]. intros k p. cbn. split; [discriminate|]. intros ([|] & x & b & E & _); discriminate. Qed.
Lemma app_last {B} (l : list B) z a x b : l ++ [z] = a ++ x :: b -> b = [] /\ a = l /\ x = z \/ exists b', b = b' ++ [z] /\ l = a ++ x :: b'.
Proof.
  destruct b as [|w b _] using rev_ind; intros E.
  - apply app_inj_tail in E as [-> ->]. auto.
  - right. exists b. change (x :: b ++ [w]) with ((x :: b) ++ [w]) in E. rewrite app_assoc in E. apply app_inj_tail in E as [-> ->]. auto.
Qed.
Lemma holds_set l ns x p : holds l ns -> in_place (spec x) -> holds (l ++ [(x, p)]) (assoc_set (big_first (name x)) p ns).
Proof.
  intros [ND H] I. split; [apply (assoc_set_NoDup _ _ _ ND)|]. intros k q. destruct (string_dec k (big_first (name x))) as [->|N].
  - rewrite assoc_set_same. split.
    + intros E. injection E as <-. exists l, x, []. repeat split; auto.
    + intros (a & y & b & E & Ny & L). destruct (app_last _ _ _ _ _ E) as [(-> & -> & Ez)|(b' & -> & _)]; [congruence|].
      exfalso. apply (L x p); [apply in_or_app; right; now left|split; auto].
  - rewrite assoc_set_other by exact N. rewrite H. split; intros (a & y & b & E & Ny & L).
    + exists a, y, (b ++ [(x, p)]). rewrite E, <- app_assoc. repeat split; try apply Ny. intros z r J. apply in_app_or in J as [J|[J|[]]]; [now apply (L z r)|].
      injection J as <- <-. intros [_ Q]. contradiction.
    + destruct (app_last _ _ _ _ _ E) as [(-> & -> & Ez)|(b' & -> & El)].
      * injection Ez as -> ->. destruct Ny. contradiction.
      * exists a, y, b'. repeat split; try assumption; try apply Ny. intros z r J. apply (L z r). apply in_or_app. now left.
Qed.
Lemma holds_skip l ns x p : holds l ns -> ~ in_place (spec x) -> holds (l ++ [(x, p)]) ns.
Proof.
  intros [ND H] I. split; [exact ND|]. intros k q. rewrite H. split; intros (a & y & b & E & Ny & L).
  - exists a, y, (b ++ [(x, p)]). rewrite E, <- app_assoc. repeat split; try apply Ny. intros z r J. apply in_app_or in J as [J|[J|[]]]; [now apply (L z r)|].
    injection J as <- <-. intros [Q _]. contradiction.
  - destruct (app_last _ _ _ _ _ E) as [(-> & -> & Ez)|(b' & -> & El)].
    + injection Ez as -> ->. destruct Ny. contradiction.
    + exists a, y, b'. repeat split; try assumption; try apply Ny. intros z r J. apply (L z r). apply in_or_app. now left.
Qed.

Notation em := (emit_members dec_text m o fuel name before decl spec required keyword cls indent).
Lemma members_text l : forall done ns0 s e ns, holds done ns0 -> em l ns0 = Ok (s, e, ns, false) ->
  exists ks, Forall2 (fun a k => meets (fst a) k /\ keyword (fst a) = false /\ ~ nest_of (fst a) cls) l ks /\ s = each tx ks /\ holds (done ++ l) ns.
Proof.
  induction l as [|[x p] l IH]; intros done ns0 s e ns D H; cbn [emit_members] in H.
  { injection H as <- <- <-. exists []. rewrite app_nil_r. repeat split; try constructor; assumption || apply D. }
  destruct (keyword x) eqn:Kx; [discriminate|].
  apply rbind_Ok in H as (y & Hy & H). apply rbind_Ok in H as (tn & Ht & H).
  assert (Hn : in_place (spec x) -> name x <> "").
  { intros I. destruct (name_shows dec_text sch m Hm o _ _ _ _ _ Hy) as (t & a & _ & _ & _ & N). unfold anon_of in N. unfold in_place in I. rewrite I in N. cbn in N.
    rewrite N in Ht. intros En. rewrite En in Ht. discriminate. }
  destruct (name_fits (name x) (comment x) _ _ _ Hy Hn) as (k & F). pose proof F as (_ & _ & _ & _ & An & _ & _ & C).
  assert (M : meets x k) by (exists y; auto).
  destruct C as [(N & I & T)|(N & I & Nn & T)]; rewrite N in Ht, H.
  - injection Ht as <-. apply rbind_Ok in H as ([[[s' e'] ns'] bad] & H & E). injection E as <- <- <- ->.
    destruct (IH (done ++ [(x, p)]) _ _ _ _ (holds_skip _ _ _ _ D I) H) as (ks & F' & -> & D').
    exists (k :: ks). rewrite <- app_assoc in D'. split; [|split; [|exact D']].
    + constructor; [|exact F']. cbn [fst]. split; [exact M|]. split; [exact Kx|]. intros [Q _]. contradiction.
    + rewrite An, <- T, <- append_assoc, (Htx x k M). reflexivity.
  - apply cap_big in Ht as [_ ->]. destruct (big_first (name x) =?s cls) eqn:Ec; [discriminate|]. apply seqb_neq in Ec.
    apply rbind_Ok in H as ([[[s' e'] ns'] bad] & H & E). injection E as <- <- <- ->.
    destruct (IH (done ++ [(x, p)]) _ _ _ _ (holds_set _ _ _ p D I) H) as (ks & F' & -> & D').
    exists (k :: ks). rewrite <- app_assoc in D'. split; [|split; [|exact D']].
    + constructor; [|exact F']. cbn [fst]. split; [exact M|]. split; [exact Kx|]. intros [_ Q]. congruence.
    + rewrite An, <- T, <- append_assoc, (Htx x k M). reflexivity.
Qed.
End MEMBERS.

(** ** Lists over the members *)
Lemma each_over {A} (R : A -> jmember -> Prop) (f : A -> string) (g : jmember -> string) l ks :
  Forall2 R l ks -> (forall a k, R a k -> f a = g k) -> String.concat "" (map f l) = each g ks.
Proof. intros F H. rewrite concat_each. induction F as [|a k l ks Ra F IH]; [reflexivity|]. unfold each in *. cbn [fold_right]. now rewrite (H _ _ Ra), IH. Qed.
Lemma map_over {A B} (R : A -> jmember -> Prop) (f : A -> B) (g : jmember -> B) l ks :
  Forall2 R l ks -> (forall a k, R a k -> f a = g k) -> map f l = map g ks.
Proof. intros F H. induction F as [|a k l ks Ra F IH]; [reflexivity|]. cbn. now rewrite (H _ _ Ra), IH. Qed.
Lemma pieces_over {A} (R : A -> jmember -> Prop) (f : A -> piece) (g : jmember -> string) l ks s e :
  Forall2 R l ks -> (forall a k s e, R a k -> f a = Ok (s, e) -> s = g k) -> pieces f l = Ok (s, e) -> s = each g ks.
Proof.
  intros F H. revert s e. induction F as [|a k l ks Ra F IH]; intros s e E; cbn [pieces] in E; [injection E as <- _; reflexivity|].
  apply rbind_Ok in E as ([s1 e1] & E1 & E). apply rbind_Ok in E as ([s2 e2] & E2 & E). injection E as <- _.
  unfold each in *. cbn [fold_right]. now rewrite (H _ _ _ _ Ra E1), (IH _ _ E2).
Qed.

Definition fmeets : fielddef -> jmember -> Prop := meets (fun f : fielddef => fd_name f) (fun f => fd_comment f) (fun f => fd_spec f) (fun f => fd_required f).
Lemma typed_args_text l ks a e : Forall2 fmeets l ks -> typed_args dec_text m o fuel l = Ok (a, e) ->
  a = map (fun k => jtype_text (jm_arg k) +++ " " +++ jm_name k) ks.
Proof.
  intros F. revert a e. induction F as [|f k l ks Rf F IH]; intros a e E; cbn [typed_args] in E; [injection E as <- _; reflexivity|].
  apply rbind_Ok in E as (x & E1 & E). apply rbind_Ok in E as ([a2 e2] & E2 & E). injection E as <- _. cbn [map]. rewrite (IH _ _ E2).
  destruct Rf as (y & Hy & _ & Nk & _ & _ & _ & T & _). rewrite E1 in Hy. injection Hy as <-. now rewrite T, Nk.
Qed.
Lemma fmeets_name f k : fmeets f k -> fd_name f = jm_name k.
Proof. intros (x & _ & _ & N & _). now rewrite N. Qed.

Lemma constructor_text cls i l ks s e : Forall2 fmeets l ks -> emit_constructor dec_text m o fuel cls i l = Ok (s, e) -> s = constructor (i +++ "    ") cls ks.
Proof.
  intros F E. unfold emit_constructor in E. apply rbind_Ok in E as ([a e1] & E1 & E). injection E as <- _. rewrite (typed_args_text _ _ _ _ F E1).
  rewrite (each_over fmeets _ (fun k => assign (i +++ "        ") k (jm_name k)) _ _ F).
  - unfold constructor, args_text, assign, line. change newline with nl. rewrite !append_assoc. reflexivity.
  - intros f k R. rewrite (fmeets_name _ _ R). unfold assign, line. change newline with nl. rewrite !append_assoc. reflexivity.
Qed.
Lemma getter_text i f k s e : fmeets f k -> emit_getter dec_text m o fuel i f = Ok (s, e) -> s = getter (i +++ "    ") k.
Proof.
  intros R E. pose proof (fmeets_name _ _ R) as N. destruct R as (y & Hy & _ & _ & _ & _ & _ & T & _). unfold emit_getter in E. rewrite Hy in E. cbn [rbind] in E.
  apply rbind_Ok in E as (c & C & E). apply cap_big in C as [_ ->]. injection E as <- _.
  unfold getter, line. change newline with nl. rewrite T, N, !append_assoc. reflexivity.
Qed.
Lemma setter_text cls i f k s e : fmeets f k -> emit_setter dec_text m o fuel cls i f = Ok (s, e) -> s = fluid_setter (i +++ "    ") cls k.
Proof.
  intros R E. pose proof (fmeets_name _ _ R) as N. destruct R as (y & Hy & _ & _ & _ & _ & _ & _ & _ & C). unfold emit_setter in E. rewrite Hy in E. cbn [rbind] in E.
  apply rbind_Ok in E as (c & D & E). injection E as <- _. assert (c = jtype_text (jm_type k)) as ->.
  { destruct C as [(A & _ & T)|(A & _ & _ & T)]; rewrite A in D; [congruence|]. apply cap_big in D as [_ ->]. congruence. }
  unfold fluid_setter, assign, line. change newline with nl. rewrite N, !append_assoc. reflexivity.
Qed.
Lemma builder_text cls i l ks s e : Forall2 fmeets l ks -> emit_builder dec_text m o fuel cls i l = Ok (s, e) -> s = builder go_quote dec_text sprint i cls ks.
Proof.
  intros F E. unfold emit_builder in E. cbv zeta in E.
  apply rbind_Ok in E as ([a1 e1] & E1 & E). apply rbind_Ok in E as ([a2 e2] & E2 & E). apply rbind_Ok in E as ([a3 e3] & E3 & E). injection E as <- _.
  apply (pieces_over fmeets _ (fun k => line (i +++ "    private " +++ jtype_text (jm_arg k) +++ " " +++ jm_name k +++ ";")) _ _ _ _ F) in E1;
    [|intros f k s0 e0 R H; unfold JavaModel.named in H; cbv beta in H; pose proof (fmeets_name _ _ R) as N; destruct R as (y & Hy & _ & _ & _ & _ & _ & T & _); rewrite Hy in H; injection H as <- _;
      rewrite T, N; unfold line; change newline with nl; rewrite !append_assoc; reflexivity].
  apply (pieces_over fmeets _ (fun k => assign (i +++ "        ") k ("copy.get" +++ big_first (jm_name k) +++ "()")) _ _ _ _ F) in E2;
    [|intros f k s0 e0 R H; apply rbind_Ok in H as (c & C & H); apply cap_big in C as [_ ->]; injection H as <- _;
      rewrite (fmeets_name _ _ R); unfold assign, line; change newline with nl; rewrite !append_assoc; reflexivity].
  apply (pieces_over fmeets _ (builder_setter go_quote dec_text sprint (i +++ "    ") (cls +++ "Builder")) _ _ _ _ F) in E3.
  2:{ intros f k s0 e0 R H. apply rbind_Ok in H as ([s1 e4] & H & E). injection E as <- _. pose proof (fmeets_name _ _ R) as N.
      destruct R as (y & Hy & _ & _ & _ & _ & _ & T & St & _). unfold JavaModel.named in H. cbv beta in H. rewrite Hy in H. injection H as <- _.
      unfold builder_setter, assign, line. change newline with nl. rewrite St, T, N. destruct (_ && _)%bool; cbn [anno_text]; rewrite !append_assoc; reflexivity. }
  subst. rewrite (map_over fmeets (fun f : fielddef => fd_name f) jm_name _ _ F fmeets_name).
  unfold builder, line. cbv zeta. change newline with nl. rewrite !append_assoc. reflexivity.
Qed.

(** ** The classes inside a class *)
Definition shows_struct (ts : typespec) : Prop := forall cls i exc s e, cstruct ts cls i exc = Ok (s, e) -> ~ In JError e ->
  exists c, shown_struct (ts_fields ts) cls (str_mem cls exc) c /\ s = ctext i c.
Lemma last_one ss s s' c : last_nest ss s c -> last_nest ss s' c -> s = s'.
Proof.
  intros (N & a & b & E & L) (N' & a' & b' & E' & L'). rewrite E in E'. clear E ss. revert a' E'. induction a as [|x a IH]; intros [|x' a'] E; cbn [app] in E.
  - injection E as -> _. reflexivity.
  - injection E as _ ->. destruct (L s'); [apply in_elt|exact N'].
  - injection E as -> <-. destruct (L' s); [apply in_elt|exact N].
  - injection E as _ E. exact (IH _ E).
Qed.
Section NESTED.
Context {A : Type} (name : A -> string) (spec : A -> typespec) (slot_of : A -> slot).
Context (Hname : forall a, slot_name (slot_of a) = name a) (Hspec : forall a, slot_spec (slot_of a) = spec a).
Lemma nest_slot a c : nest_of name spec a c <-> nests (slot_of a) c.
Proof. unfold nest_of, nests. rewrite Hname, Hspec, big_large. tauto. Qed.
Context (l : list A) (i : string) (ns : inners).
Notation made := (fun a => (a, cstruct (spec a) (capitalize (name a)) i [])).
Context (Hns : holds name spec (map made l) ns) (IH : forall a, In a l -> shows_struct (spec a)).

Lemma held_last k p : assoc k ns = Some p -> exists a, In a l /\ p = cstruct (spec a) k i [] /\ last_nest (map slot_of l) (slot_of a) k.
Proof.
  intros E. apply (proj2 Hns) in E as (u & a & v & E & N & L). apply map_eq_app in E as (l1 & l2 & El & <- & E). apply map_eq_cons in E as (a' & l3 & -> & E & <-).
  injection E as -> <-. exists a. split; [rewrite El; apply in_elt|]. split; [destruct N as [_ ->]; reflexivity|]. split; [now apply nest_slot|].
  exists (map slot_of l1), (map slot_of l3). split; [rewrite El, map_app; reflexivity|]. intros s' I. apply in_map_iff in I as (b & <- & I). rewrite <- nest_slot.
  apply (L b (cstruct (spec b) (capitalize (name b)) i [])). apply in_map_iff. exists b. auto.
Qed.
Lemma last_held s k : last_nest (map slot_of l) s k -> exists p, assoc k ns = Some p.
Proof.
  intros (N & u & v & E & L). apply map_eq_app in E as (l1 & l2 & El & <- & E). apply map_eq_cons in E as (a & l3 & -> & <- & <-).
  exists (cstruct (spec a) (capitalize (name a)) i []). apply (proj2 Hns). exists (map made l1), a, (map made l3). split; [rewrite El, map_app; reflexivity|].
  split; [now apply nest_slot|]. intros b q I. apply in_map_iff in I as (b' & E & I). injection E as -> <-. rewrite nest_slot. apply L, in_map, I.
Qed.
Lemma nested_list K : forall s e, (forall k, In k K -> exists p, assoc k ns = Some p) ->
  pieces (fun k => match assoc k ns with Some p => p | None => just "" end) K = Ok (s, e) -> ~ In JError e ->
  exists L inner, map snd L = K /\ (forall x, In x L -> last_nest (map slot_of l) (fst x) (snd x)) /\ shown_nested L inner
    /\ s = fold_right (fun c acc => ctext i c +++ acc) "" inner.
Proof.
  induction K as [|k K IHK]; intros s e Hk E Ne; cbn [pieces] in E.
  - injection E as <- _. exists [], []. split; [reflexivity|]. split; [intros x []|]. split; [constructor|reflexivity].
  - apply rbind_Ok in E as ([s1 e1] & E1 & E). apply rbind_Ok in E as ([s2 e2] & E2 & E). injection E as <- <-.
    destruct (Hk k (or_introl eq_refl)) as [p Ep]. rewrite Ep in E1. destruct (held_last _ _ Ep) as (a & Ia & -> & La).
    destruct (IH a Ia _ _ _ _ _ E1) as (c & Sc & ->); [intros I; apply Ne, in_or_app; now left|].
    destruct (IHK _ _ (fun k I => Hk k (or_intror I)) E2) as (L & inner & <- & HL & SL & ->); [intros I; apply Ne, in_or_app; now right|].
    exists ((slot_of a, k) :: L), (c :: inner). split; [reflexivity|]. split; [|split; [|reflexivity]].
    + intros x [<- |I]; [exact La|now apply HL].
    + constructor; [rewrite Hspec; exact Sc|exact SL].
Qed.
Lemma nested_text s e : emit_nested ord ns = Ok (s, e) -> ~ In JError e ->
  exists inner, shown_inner (map slot_of l) inner /\ s = fold_right (fun c acc => ctext i c +++ acc) "" inner.
Proof.
  intros E Ne. unfold emit_nested in E.
  assert (P : forall k, In k (ord (map fst ns)) <-> exists p, assoc k ns = Some p).
  { intros k. split.
    - intros I. apply (Permutation_in _ (Hord _)) in I. destruct (assoc k ns) as [p|] eqn:Ek; [eauto|]. exfalso. apply assoc_None in Ek. contradiction.
    - intros [p Ek]. apply (Permutation_in _ (Permutation_sym (Hord _))). apply assoc_In in Ek. apply in_map_iff. exists (k, p). auto. }
  destruct (nested_list _ _ _ (fun k => proj1 (P k)) E Ne) as (L & inner & EL & HL & SL & ->). exists inner. split; [|reflexivity].
  apply is_inner with L; [|intros s c; split; [intros I; exact (HL _ I)|intros LN]|exact SL].
  - rewrite EL. apply (Permutation_NoDup (Permutation_sym (Hord _))). exact (proj1 Hns).
  - assert (I : In c (map snd L)) by (rewrite EL; apply P; exact (last_held _ _ LN)).
    apply in_map_iff in I as ([s' c'] & Ec & I). cbn in Ec. subst c'. rewrite (last_one _ _ _ _ LN (HL _ I)). exact I.
Qed.
End NESTED.

Lemma pretty_text : fst (emit_pretty o) = to_string (jo_json o).
Proof. unfold emit_pretty, to_string. destruct (jo_json o); reflexivity. Qed.
Lemma ignored_text l ks : Forall2 fmeets l ks -> ignored_fields l = ignored go_quote ks.
Proof.
  intros F. unfold ignored_fields, ignored. change inherited with ["message"; "stackTrace"; "cause"; "localizedMessage"; "suppressed"].
  apply flat_map_ext. intros x. induction F as [|f k l ks R F IH]; [reflexivity|]. cbn [flat_map filter]. rewrite IH, (fmeets_name _ _ R).
  destruct (string_dec (jm_name k) x) as [->|N]; [now rewrite seqb_refl|]. now rewrite (proj2 (seqb_neq _ _) N).
Qed.
Lemma forall2_map {A B C} (f : A -> B) (R : B -> C -> Prop) l ks : Forall2 (fun a k => R (f a) k) l ks -> Forall2 R (map f l) ks.
Proof. induction 1; constructor; assumption. Qed.
Lemma forall2_unmap {A B C} (f : A -> B) (R : B -> C -> Prop) l : forall ks, Forall2 R (map f l) ks -> Forall2 (fun a k => R (f a) k) l ks.
Proof. induction l; intros ks H; inversion H; subst; constructor; auto. Qed.
Lemma forall2_imp {A B} (R Q : A -> B -> Prop) l ks : (forall a b, R a b -> Q a b) -> Forall2 R l ks -> Forall2 Q l ks.
Proof. intros H. induction 1; constructor; auto. Qed.
Lemma forall2_left {A B} (R : A -> B -> Prop) l ks a : Forall2 R l ks -> In a l -> exists b, R a b.
Proof. induction 1 as [|x y l ks Rx F IH]; [intros []|]. intros [<- |I]; eauto. Qed.
Lemma fmeets_slot f k : fmeets f k -> shown_slot (field_slot f) k.
Proof. intros (x & _ & F). exact (proj1 F). Qed.

Lemma annos_line i k decl : member_line i (map atext (jm_annos k)) decl = annos_text go_quote dec_text sprint (i +++ "    ") k +++ decl.
Proof.
  unfold member_line, annos_text. f_equal. rewrite map_map, concat_each. unfold each, line. change newline with nl.
  induction (jm_annos k) as [|a l IH]; [reflexivity|]. cbn [fold_right]. rewrite IH, !append_assoc. reflexivity.
Qed.
Lemma struct_member_text i f k : fmeets f k ->
  (comment_text (i +++ "    ") (fd_comment f) +++ (if fd_required f then "" else i +++ "    @JsonInclude(JsonInclude.Include.NON_EMPTY) /* Optional field */" +++ nl))
  +++ member_line i (map atext (jm_annos k)) (i +++ (if jo_immutable o then "    private final " else "    public ") +++ jtype_text (jm_type k) +++ " " +++ fd_name f +++ ";" +++ nl +++ nl)
  = struct_member java_comment go_quote dec_text sprint (jo_immutable o) (i +++ "    ") k.
Proof.
  intros (x & _ & _ & Nk & Ck & Ok' & _). unfold struct_member, line. change newline with nl.
  rewrite annos_line, note_text, Nk, Ck, Ok'. destruct (fd_required f), (jo_immutable o); cbn [negb]; rewrite !append_assoc; reflexivity.
Qed.
Lemma fields_split l i ks cls : Forall2 (fun (a : fielddef * piece) k => fmeets (fst a) k /\ reserved_keyword (fd_name (fst a)) = false
    /\ ~ nest_of (fun f : fielddef => fd_name f) (fun f => fd_spec f) (fst a) cls)
    (map (fun f : fielddef => (f, cstruct (fd_spec f) (capitalize (fd_name f)) i [])) l) ks ->
  Forall2 fmeets l ks /\ forall f : fielddef, In f l -> fd_name f <> "package" /\ ~ nests (field_slot f) cls.
Proof.
  intros F. apply forall2_unmap in F. cbn [fst] in F. split; [revert F; apply forall2_imp; intros a b H; apply H|].
  intros f I. destruct (forall2_left _ _ _ _ F I) as (k & _ & K & N). split.
  - intros E. rewrite E in K. discriminate.
  - intros H. apply N. apply (nest_slot (fun f : fielddef => fd_name f) (fun f => fd_spec f) field_slot (fun _ => eq_refl) (fun _ => eq_refl)), H.
Qed.
Lemma struct_text ts : shows_struct ts.
Proof.
  induction ts as [ts IHf _] using typespec_ind'. rewrite Forall_forall in IHf. intros cls i exc s e H Ne.
  destruct ts as [t p v mns mxs fs es mn mx it kt vs un w rf]. cbn [create_struct ts_fields] in H, IHf |- *. cbv zeta in H.
  set (thrown := str_mem cls exc) in *.
  apply rbind_Ok in H as ([[[ms e1] ns] bad] & HM & H).
  destruct bad; [apply ok_pair in H as [_ ->]; exfalso; apply Ne, in_or_app; right; apply in_or_app; right; now left|].
  apply (members_text (fun f : fielddef => fd_name f) (fun f => fd_comment f) _ _ _ _ _ cls i
    (struct_member java_comment go_quote dec_text sprint (jo_immutable o) (i +++ "    ")) (fun f k M => struct_member_text i f k M) _ [] _ _ _ _ (holds_nil _ _)) in HM as (ks & FK & -> & HH).
  cbn [app] in HH. apply fields_split in FK as [FK FN].
  assert (FS : Forall2 shown_slot (map field_slot fs) ks) by (apply forall2_map; revert FK; apply forall2_imp; exact fmeets_slot).
  assert (Ei : (i =?s "") = if string_dec i "" then true else false).
  { destruct (string_dec i "") as [->|N]; [reflexivity|]. now apply seqb_neq. }
  destruct (jo_lombok o && negb thrown)%bool eqn:El.
  - apply ok_pair in H as [-> _]. apply andb_true_iff in El as [El Et]. apply negb_true_iff in Et. exists (JStruct cls false ks []). rewrite Et. split; [apply ss_lombok; assumption|].
    cbn [class_text]. cbv zeta. rewrite El. cbn [andb negb]. rewrite Ei. unfold line. change newline with nl.
    clear -FK. destruct FK; destruct (string_dec i ""), (jo_immutable o); rewrite !append_assoc; reflexivity.
  - apply rbind_Ok in H as ([body e2] & HB & H). destruct (emit_pretty o) as [pt e3] eqn:Ep. apply rbind_Ok in H as ([inner e4] & HN & H). apply ok_pair in H as [-> ->].
    assert (N4 : ~ In JError e4) by (intros I; apply Ne; apply in_or_app; right; apply in_or_app; right; apply in_or_app; right; apply in_or_app; now right).
    destruct (nested_text (fun f : fielddef => fd_name f) (fun f => fd_spec f) field_slot (fun _ => eq_refl) (fun _ => eq_refl) fs (i +++ "    ") ns HH IHf _ _ HN N4) as (cs & SC & ->).
    exists (JStruct cls thrown ks cs). split.
    { apply ss_struct; try assumption. intros L. rewrite L in El. cbn in El. now destruct thrown. }
    assert (Ept : pt = to_string (jo_json o)) by (rewrite <- pretty_text, Ep; reflexivity). subst pt.
    assert (EB : body = if jo_immutable o then constructor (i +++ "    ") cls ks +++ each (getter (i +++ "    ")) ks +++ builder go_quote dec_text sprint (i +++ "    ") cls ks
                        else each (fluid_setter (i +++ "    ") cls) ks).
    { destruct (jo_immutable o).
      - apply rbind_Ok in HB as ([a ea] & Ha & HB). apply rbind_Ok in HB as ([b eb] & Hb & HB). apply rbind_Ok in HB as ([c ec] & Hc & HB). injection HB as <- _.
        rewrite (constructor_text _ _ _ _ _ _ FK Ha), (builder_text _ _ _ _ _ _ FK Hc). f_equal. f_equal.
        apply (pieces_over fmeets _ _ _ _ _ _ FK (fun a k s e R => getter_text i a k s e R) Hb).
      - apply (pieces_over fmeets _ _ _ _ _ _ FK (fun a k s e R => setter_text cls i a k s e R) HB). }
    subst body. cbn [class_text]. cbv zeta. rewrite El, Ei, (ignored_text _ _ FK). unfold line. change newline with nl. clear.
    destruct (string_dec i ""), thrown, (jo_immutable o); rewrite !append_assoc; reflexivity.
Qed.

(** ** Unions *)
Definition vmeets : variantdef -> jmember -> Prop := meets (fun v : variantdef => uv_name v) (fun v => uv_comment v) (fun v => uv_spec v) (fun _ => false).
Lemma vmeets_name v k : vmeets v k -> uv_name v = jm_name k.
Proof. intros (x & _ & _ & N & _). now rewrite N. Qed.
Lemma vmeets_slot v k : vmeets v k -> shown_slot (variant_slot v) k.
Proof. intros (x & _ & F). exact (proj1 F). Qed.
Lemma union_args_text l ks a e : Forall2 vmeets l ks -> union_args dec_text m o fuel l = Ok (a, e) ->
  a = map (fun k => "@JsonProperty(""" +++ jm_name k +++ """) " +++ jtype_text (jm_arg k) +++ " " +++ jm_name k) ks.
Proof.
  intros F. revert a e. induction F as [|f k l ks Rf F IH]; intros a e E; cbn [union_args] in E; [injection E as <- _; reflexivity|].
  apply rbind_Ok in E as (x & E1 & E). apply rbind_Ok in E as ([a2 e2] & E2 & E). apply ok_pair in E as [-> _]. cbn [map]. rewrite (IH _ _ E2).
  destruct Rf as (y & Hy & _ & Nk & _ & _ & _ & T & _). rewrite E1 in Hy. injection Hy as <-. now rewrite T, Nk.
Qed.
Lemma union_member_text v k : vmeets v k ->
  ("    @JsonInclude(JsonInclude.Include.NON_EMPTY)" +++ nl +++ comment_text "    " (uv_comment v))
  +++ member_line "" (map atext (jm_annos k)) ("    public final " +++ jtype_text (jm_type k) +++ " " +++ uv_name v +++ ";" +++ nl)
  = union_member java_comment go_quote dec_text sprint k.
Proof.
  intros (x & _ & _ & Nk & Ck & Ok' & _). unfold union_member, line. change newline with nl. rewrite annos_line, note_text, Nk, Ck. rewrite !append_assoc. reflexivity.
Qed.
Lemma variants_split l i ks cls : Forall2 (fun (a : variantdef * piece) k => vmeets (fst a) k /\ false = false
    /\ ~ nest_of (fun f : variantdef => uv_name f) (fun f => uv_spec f) (fst a) cls)
    (map (fun f : variantdef => (f, cstruct (uv_spec f) (capitalize (uv_name f)) i [])) l) ks ->
  Forall2 vmeets l ks /\ forall f : variantdef, In f l -> ~ nests (variant_slot f) cls.
Proof.
  intros F. apply forall2_unmap in F. cbn [fst] in F. split; [revert F; apply forall2_imp; intros a b H; apply H|].
  intros f I. destruct (forall2_left _ _ _ _ F I) as (k & _ & K & N).
  intros H. apply N. apply (nest_slot (fun f : variantdef => uv_name f) (fun f => uv_spec f) variant_slot (fun _ => eq_refl) (fun _ => eq_refl)), H.
Qed.
Lemma variant_lines l ks : Forall2 vmeets l ks ->
  (fix go (l : list variantdef) := match l with [] => "" | v :: r => "        " +++ uv_name v +++ (match r with [] => "" | _ => "," end) +++ nl +++ go r end) l
  = listed (fun k sep => line ("        " +++ jm_name k +++ sep)) "," "" ks.
Proof.
  induction 1 as [|v k l ks R F IH]; [reflexivity|]. rewrite IH, (vmeets_name _ _ R). unfold line. change newline with nl. destruct F as [|v' k' l ks R' F].
  - cbn [listed]. rewrite !append_assoc, append_nil_r. reflexivity.
  - change (listed ?f "," "" (k :: k' :: ks)) with (f k "," +++ listed f "," "" (k' :: ks)). cbv beta. rewrite !append_assoc. reflexivity.
Qed.
Lemma union_text vs cls s e : create_union dec_text m o fuel ord vs cls = Ok (s, e) -> ~ In JError e ->
  exists ks inner, Forall2 shown_slot (map variant_slot vs) ks /\ (forall v, In v vs -> ~ nests (variant_slot v) cls)
    /\ shown_inner (map variant_slot vs) inner /\ s = ctext "" (JUnion cls ks inner).
Proof.
  intros H Ne. unfold create_union in H. cbv zeta in H. apply rbind_Ok in H as ([[[ms e1] ns] bad] & HM & H).
  destruct bad; [apply ok_pair in H as [_ ->]; exfalso; apply Ne, in_or_app; right; apply in_or_app; right; now left|].
  apply (members_text (fun v : variantdef => uv_name v) (fun v => uv_comment v) _ _ _ _ _ cls ""
    (union_member java_comment go_quote dec_text sprint) (fun v k M => union_member_text v k M) _ [] _ _ _ _ (holds_nil _ _)) in HM as (ks & FK & -> & HH).
  cbn [app] in HH. apply variants_split in FK as [FK FN].
  apply rbind_Ok in H as ([args e2] & HA & H). apply rbind_Ok in H as ([mk e3] & HK & H).
  destruct (emit_pretty o) as [pt e4] eqn:Ep. apply rbind_Ok in H as ([inner e5] & HN & H). apply ok_pair in H as [-> ->].
  assert (N5 : ~ In JError e5) by (intros I; apply Ne; do 5 (apply in_or_app; right); exact I).
  destruct (nested_text (fun v : variantdef => uv_name v) (fun v => uv_spec v) variant_slot (fun _ => eq_refl) (fun _ => eq_refl) vs "    " ns HH (fun v _ => struct_text (uv_spec v)) _ _ HN N5) as (cs & SC & ->).
  exists ks, cs. split; [apply forall2_map; revert FK; apply forall2_imp; exact vmeets_slot|]. split; [exact FN|]. split; [exact SC|].
  assert (Ept : pt = to_string (jo_json o)) by (rewrite <- pretty_text, Ep; reflexivity). subst pt.
  rewrite (union_args_text _ _ _ _ FK HA).
  apply (pieces_over vmeets _ (fun k => line "" +++ line ("    public static " +++ cls +++ " of" +++ big_first (jm_name k) +++ "(" +++ jtype_text (jm_arg k) +++ " v) {")
      +++ line ("        return new " +++ cls +++ "(" +++ join ", " (map (fun w => if string_dec (jm_name k) (jm_name w) then "v" else "null") ks) +++ ");")
      +++ line "    }") _ _ _ _ FK) in HK.
  2:{ intros v k s0 e0 R Hv. cbv beta in Hv. pose proof (vmeets_name _ _ R) as N. destruct R as (y & Hy & _ & _ & _ & _ & _ & T & _). rewrite Hy in Hv. cbn [rbind] in Hv.
      apply rbind_Ok in Hv as (c & C & Hv). apply cap_big in C as [_ ->]. apply ok_pair in Hv as [-> _].
      rewrite (map_over vmeets _ (fun w => if string_dec (jm_name k) (jm_name w) then "v" else "null") _ _ FK).
      - unfold line. change newline with nl. rewrite T, N, !append_assoc. reflexivity.
      - intros w kw Rw. rewrite N, (vmeets_name _ _ Rw). destruct (string_dec (jm_name k) (jm_name kw)) as [->|D]; [now rewrite seqb_refl|now rewrite (proj2 (seqb_neq _ _) D)]. }
  subst mk. rewrite (variant_lines _ _ FK).
  rewrite (each_over vmeets _ (fun k => assign "        " k (jm_name k) +++ line ("        if (" +++ jm_name k +++ " != null) {")
                         +++ line ("            this.variant = Variant." +++ jm_name k +++ ";") +++ line "        }") _ _ FK)
    by (intros v k R; rewrite (vmeets_name _ _ R); unfold assign, line; change newline with nl; rewrite !append_assoc; reflexivity).
  cbn [class_text]. unfold line. change newline with nl. clear. destruct (jo_lombok o); rewrite !append_assoc; reflexivity.
Qed.

(** ** Enums and unit values *)
Lemma enum_elements es : exists l, Forall2 (fun e x => symbol_shown e (fst x) /\ snd x = ee_comment e) es l
  /\ enum_lines es = listed (fun e sep => let '(s, t, c) := e in
                    "    " +++ s +++ "(""" +++ t +++ """)" +++ sep +++ if string_dec c "" then line "" else java_comment " " 0 c) "," ";" l.
Proof.
  induction es as [|e es (l & F & E)]; [exists []; split; [constructor|reflexivity]|].
  exists ((ee_symbol e, enum_value e, ee_comment e) :: l). split; [constructor; [split; [apply enum_value_spec|reflexivity]|exact F]|].
  cbn [enum_lines]. rewrite E. unfold enum_line. cbv zeta. change (if get_annotation (ee_annos e) "x_enumValue" =?s "" then ee_symbol e else get_annotation (ee_annos e) "x_enumValue") with (enum_value e).
  assert (Ec : (if ee_comment e =?s "" then nl else format_comment " " "// " (ee_comment e) 0 false) = if string_dec (ee_comment e) "" then line "" else java_comment " " 0 (ee_comment e)).
  { destruct (string_dec (ee_comment e) "") as [->|N]; [reflexivity|]. now rewrite (proj2 (seqb_neq _ _) N). }
  rewrite Ec. destruct F as [|e' x es l R F]; [cbn [listed]; rewrite !append_assoc, append_nil_r; reflexivity|].
  change (listed ?f "," ";" (?k :: x :: l)) with (f k "," +++ listed f "," ";" (x :: l)). cbv beta iota. rewrite !append_assoc. reflexivity.
Qed.
Lemma enum_text es cls : exists l, Forall2 (fun e x => symbol_shown e (fst x) /\ snd x = ee_comment e) es l /\ fst (create_enum es cls) = ctext "" (JEnum cls l).
Proof.
  destruct (enum_elements es) as (l & F & E). exists l. split; [exact F|]. unfold create_enum. cbn [fst class_text]. rewrite E. unfold line. change newline with nl. rewrite !append_assoc. reflexivity.
Qed.
Lemma reader_text v : parse_value v = match find (fun x => if string_dec (fst x) v then true else false) readers with Some x => snd x | None => "<bad value type, must be numeric>" end.
Proof.
  unfold parse_value, readers. cbn [find fst snd].
  assert (Q : forall a, (v =?s a) = if string_dec a v then true else false)
    by (intros a; destruct (string_dec a v) as [->|N]; [apply seqb_refl|apply seqb_neq; congruence]).
  rewrite !Q. repeat match goal with |- context [string_dec ?a ?b] => destruct (string_dec a b); [reflexivity|] end. reflexivity.
Qed.
Lemma unit_text ts cls s e : create_unit dec_text m o fuel ts cls = Ok (s, e) ->
  exists v a u b k x, use (Some ts) (ts_value ts) true v a /\ use (Some ts) (ts_unit ts) true u b /\ defines sch (jtype_text u) k
    /\ (x = Some false /\ ts_type k = "String" \/ x = Some true /\ ts_type k = "Enum" \/ x = None /\ ts_type k <> "String" /\ ts_type k <> "Enum")
    /\ s = ctext "" (JUnit cls v u x).
Proof.
  intros H. unfold create_unit in H. apply rbind_Ok in H as (vn & HV & H). apply rbind_Ok in H as (un & HU & H).
  apply (name_shows dec_text sch m Hm o) in HV as (v & a & UV & TV & _). apply (name_shows dec_text sch m Hm o) in HU as (u & b & UU & TU & _).
  rewrite TU, TV in H. destruct (find_type m (jtype_text u)) as [td|] eqn:F; [|discriminate]. cbv zeta in H. apply ok_pair in H as [-> _].
  set (x := if ts_type (td_spec td) =?s "String" then Some false else if ts_type (td_spec td) =?s "Enum" then Some true else None).
  exists v, a, u, b, (td_spec td), x. split; [exact UV|]. split; [exact UU|]. split; [exact (find_def sch m Hm _ _ F)|]. split.
  - subst x. destruct (_ =?s "String") eqn:E1; [apply seqb_eq in E1; auto|]. destruct (_ =?s "Enum") eqn:E2; [apply seqb_eq in E2; auto|].
    right. right. repeat split; now apply seqb_neq.
  - cbn [class_text]. rewrite reader_text. subst x. unfold line. change newline with nl. clear. cbv zeta.
    destruct (_ =?s "String"); [rewrite !append_assoc; reflexivity|]. destruct (_ =?s "Enum"); rewrite !append_assoc; reflexivity.
Qed.

Lemma class_piece_text ts cls exc p s e : class_piece dec_text m o fuel ord ts cls exc = Some p -> p = Ok (s, e) -> ~ In JError e ->
  exists c, class_shown sch (jo_instants o) (jo_lombok o) (fun n => str_mem n exc) ts cls c /\ s = ctext "" c.
Proof.
  intros H -> Ne. unfold class_piece in H. cbv zeta in H.
  destruct (_ =?s "Struct") eqn:E1; [apply seqb_eq in E1; injection H as H; destruct (struct_text ts _ _ _ _ _ H Ne) as (c & S & ->); exists c; split; [now apply cs_struct|reflexivity]|].
  destruct (_ =?s "UnitValue") eqn:E2.
  { apply seqb_eq in E2. injection H as H. apply unit_text in H as (v & a & u & b & k & x & A1 & A2 & A3 & A4 & ->). eexists. split; [eapply cs_unit; eassumption|reflexivity]. }
  destruct (_ =?s "Enum") eqn:E3.
  { apply seqb_eq in E3. injection H as <- _. destruct (enum_text (ts_elements ts) cls) as (l & F & E). exists (JEnum cls l). split; [now apply cs_enum|exact E]. }
  destruct (_ =?s "Union") eqn:E4; [|discriminate]. apply seqb_eq in E4. injection H as H.
  destruct (union_text _ _ _ _ H Ne) as (ks & inner & A1 & A2 & A3 & ->). exists (JUnion cls ks inner). split; [apply cs_union; assumption|reflexivity].
Qed.
Lemma class_piece_none ts cls exc : class_piece dec_text m o fuel ord ts cls exc = None <-> ~ In (ts_type ts) ["Struct"; "UnitValue"; "Enum"; "Union"].
Proof.
  unfold class_piece. cbv zeta. destruct (_ =?s "Struct") eqn:E1; [apply seqb_eq in E1; rewrite E1; cbn; intuition discriminate|].
  destruct (_ =?s "UnitValue") eqn:E2; [apply seqb_eq in E2; rewrite E2; cbn; intuition discriminate|].
  destruct (_ =?s "Enum") eqn:E3; [apply seqb_eq in E3; rewrite E3; cbn; intuition discriminate|].
  destruct (_ =?s "Union") eqn:E4; [apply seqb_eq in E4; rewrite E4; cbn; intuition discriminate|].
  apply seqb_neq in E1, E2, E3, E4. split; [|reflexivity]. intros _. cbn. intuition congruence.
Qed.
End TEXT.
