(** Actions written to an OpenAPI document and read back. *)
From Coq Require Import Permutation.
From Verif Require Import GoStr Outcome Value Schema Misc Model SpecModel ModelFacts SpecPV SpecMisc SpecGen OpenApi
  OpenApiImport SpecOpenApi OpenApiFacts OpenApiTotal SpecImport ImportFacts.

(** ** Names *)
Lemma name_letter_spec c : is_letter c || Ascii.eqb c "_" = name_letter c.
Proof. destruct c as [[] [] [] [] [] [] [] []]; reflexivity. Qed.
Lemma take_out_letters s : forall skip, take_out skip s = letters s.
Proof.
  induction s as [|c s IH]; intros skip; [reflexivity|]. cbn [take_out letters]. rewrite <- name_letter_spec, !IH.
  destruct (is_letter c || Ascii.eqb c "_"), skip, (is_digit c); reflexivity.
Qed.
Lemma identifier_letters s : make_identifier s = letters s.
Proof. apply take_out_letters. Qed.
Lemma strip_x_bare h : bare_header h (strip_x h).
Proof.
  unfold strip_x, bare_header. destruct (has_prefix "x-" h) eqn:A; cbn [orb].
  - apply has_prefix_spec in A. destruct A as [r ->]. left. left. reflexivity.
  - destruct (has_prefix "X-" h) eqn:B.
    + apply has_prefix_spec in B. destruct B as [r ->]. left. right. reflexivity.
    + right. split; [reflexivity|]. intros [r [->| ->]]; [change (has_prefix "x-" ("x-" +++ r)) with true in A|change (has_prefix "X-" ("X-" +++ r)) with true in B]; discriminate.
Qed.

(** ** Status codes *)
Definition codes : list Z := map (fun n => Z.of_nat n + 100)%Z (seq 0 900).
Lemma codes_In z : (100 <= z < 1000)%Z -> In z codes.
Proof. intros H. apply in_map_iff. exists (Z.to_nat (z - 100)). split; [lia|]. apply in_seq. lia. Qed.
Definition good_code (z : Z) : bool :=
  match atoi (sprint z) with Some y => (y =? z)%Z | None => false end
  && (to_int32 z =? z)%Z && negb (contains "X" (sprint z)) && negb (sprint z =?s "default")
  && Bool.eqb (success (sprint z)) ((200 <=? z) && (z <? 400))%Z.
Lemma codes_good : forallb good_code codes = true.
Proof. vm_compute. reflexivity. Qed.
Lemma code_facts z : (100 <= z < 1000)%Z ->
  atoi (sprint z) = Some z /\ to_int32 z = z /\ contains "X" (sprint z) = false /\ sprint z <> "default"
  /\ (success (sprint z) = true <-> (200 <= z < 400)%Z).
Proof.
  intros H. assert (G := proj1 (forallb_forall _ _) codes_good z (codes_In z H)). unfold good_code in G.
  apply andb_true_iff in G. destruct G as [G G5]. apply andb_true_iff in G. destruct G as [G G4]. apply andb_true_iff in G. destruct G as [G G3].
  apply andb_true_iff in G. destruct G as [G1 G2].
  split; [destruct (atoi (sprint z)); [apply Z.eqb_eq in G1; congruence|discriminate]|]. split; [apply Z.eqb_eq; exact G2|].
  split; [apply negb_true_iff; exact G3|]. split; [intros E; rewrite E in G4; discriminate|].
  apply Bool.eqb_prop in G5. rewrite G5, andb_true_iff, Z.leb_le, Z.ltb_lt. reflexivity.
Qed.
Lemma sprint_inj a b : (100 <= a < 1000)%Z -> (100 <= b < 1000)%Z -> sprint a = sprint b -> a = b.
Proof. intros A B E. destruct (code_facts a A) as (X & _), (code_facts b B) as (Y & _). rewrite E in X. congruence. Qed.

(** ** Tags *)
Lemma convert_tags_more rez tmp l : rez <> "" -> tmp <> "" -> convert_tags rez tmp l = (rez, join "," (tmp :: l)).
Proof.
  intros R T. revert tmp T. induction l as [|t l IH]; intros tmp T; [reflexivity|]. cbn [convert_tags].
  destruct (rez =?s "") eqn:E1; [apply seqb_eq in E1; contradiction|]. destruct (tmp =?s "") eqn:E2; [apply seqb_eq in E2; contradiction|].
  rewrite IH; [|destruct tmp; [contradiction|discriminate]]. f_equal. cbn [join]. destruct l as [|y l]; [reflexivity|]. rewrite !append_assoc. reflexivity.
Qed.
Lemma convert_tags_split rez t : rez <> "" -> t <> "" -> (~ exists r, t = "," +++ r) -> convert_tags rez "" (split "," t) = (rez, t).
Proof.
  intros R T C. destruct (split "," t) as [|x l] eqn:S; [exfalso; exact (split_nonempty _ _ S)|].
  assert (J := join_split "," t). rewrite S in J. cbn [convert_tags]. destruct (rez =?s "") eqn:E1; [apply seqb_eq in E1; contradiction|]. cbn [String.eqb].
  rewrite convert_tags_more; [rewrite J; reflexivity|exact R|]. intros ->. destruct l as [|y l]; [cbn in J; congruence|]. apply C. eexists. symmetry. exact J.
Qed.
Lemma get_tags h t : NoDup (map fst (h_annos h)) -> (get "x_tags" (h_annos h) = Some t <-> tags_of h t).
Proof. intros N. apply get_In. exact N. Qed.
Lemma tags_back h : NoDup (map fst (h_annos h)) -> (forall t, tags_of h t -> h_resource h <> "" /\ t <> "" /\ ~ exists r, t = "," +++ r) ->
  exists tmp, convert_tags "" "" (oas_tags h) = (h_resource h, tmp)
  /\ (forall t, (if tmp =?s "" then [] else [("x_tags", tmp)]) = [("x_tags", t)] <-> tags_of h t)
  /\ ((if tmp =?s "" then [] else [("x_tags", tmp)]) = [] <-> forall t, ~ tags_of h t).
Proof.
  intros N H. unfold oas_tags. destruct (get "x_tags" (h_annos h)) as [t|] eqn:G.
  - apply (get_tags h t N) in G. destruct (H t G) as (R & T & C). exists t. destruct (h_resource h =?s "") eqn:E; [apply seqb_eq in E; contradiction|]. cbn [negb app].
    cbn [convert_tags String.eqb]. split; [apply convert_tags_split; assumption|]. destruct (t =?s "") eqn:E2; [apply seqb_eq in E2; contradiction|]. split.
    + intros t'. split; [intros Q; injection Q as <-; exact G|]. intros G'. apply (get_tags h _ N) in G, G'. congruence.
    + split; [discriminate|]. intros X. exfalso. exact (X _ G).
  - exists "". rewrite app_nil_r. assert (X : forall t, ~ tags_of h t) by (intros t T; apply (get_tags h t N) in T; congruence). cbn [String.eqb].
    split; [destruct (h_resource h =?s "") eqn:E; [apply seqb_eq in E; rewrite E; reflexivity|reflexivity]|]. split.
    + intros t. split; [discriminate|intros T; exfalso; exact (X _ T)].
    + split; [intros _; exact X|reflexivity].
Qed.

Lemma at_most_one_eq P l p q : at_most_one P l -> In p l -> In q l -> P p -> P q -> p = q.
Proof.
  intros U I J Hp Hq. apply in_split in I. destruct I as (a & b & ->). apply in_app_or in J. destruct J as [J|[J|J]]; [|exact J|].
  - exfalso. apply in_split in J. destruct J as (a1 & a2 & ->). apply (U a1 q a2 p b); [rewrite <- app_assoc; reflexivity|exact Hq|exact Hp].
  - exfalso. apply in_split in J. destruct J as (b1 & b2 & ->). apply (U a p b1 q b2); [reflexivity|exact Hp|exact Hq].
Qed.

Section R.
Context (f64 : decimal -> decimal) (sch : schema) (m : model) (Hm : new_model sch = Ok m).
Notation schema_at := (oas_schema f64 m).
Notation not_leaf := (oas_scalars ++ ["Array"; "Map"; "Struct"; "Enum"]).

(** ** Inputs *)
Lemma not_in_neq (t : string) l b : ~ In t l -> In b l -> (t =?s b) = false.
Proof. intros N I. destruct (t =?s b) eqn:E; [|reflexivity]. apply seqb_eq in E. subst. contradiction. Qed.
Lemma reference_schema fuel ts name s : ~ In (ts_type ts) not_leaf -> schema_at fuel ts name = Ok s -> s = oas_ref (ts_type ts).
Proof.
  intros N H. destruct fuel as [|fuel]; [discriminate|]. cbn [oas_schema] in H.
  assert (NM : str_mem (ts_type ts) number_types = false).
  { unfold str_mem, number_types. cbn [existsb]. rewrite !(not_in_neq _ _ _ N) by (simpl; tauto). reflexivity. }
  rewrite NM in H. rewrite !(not_in_neq _ _ _ N) in H by (simpl; tauto). injection H as <-. reflexivity.
Qed.
Lemma text_schema fuel ts name s : In (ts_type ts) text_types -> schema_at fuel ts name = Ok s ->
  o_type s = "string" /\ o_ref s = "" /\ o_enum s = None.
Proof.
  intros I H. destruct fuel as [|fuel]; [discriminate|]. cbn [oas_schema] in H. simpl in I.
  repeat (destruct I as [I|I]; [rewrite <- I in H; cbn in H; injection H as <-; repeat split|]). destruct I.
Qed.
Lemma nontext_schema fuel ts name s : ~ In (ts_type ts) text_types -> schema_at fuel ts name = Ok s -> o_type s <> "string".
Proof.
  intros N H. destruct fuel as [|fuel]; [discriminate|]. cbn [oas_schema] in H.
  destruct (ts_type ts =?s "Bool"); [injection H as <-; discriminate|].
  destruct (str_mem (ts_type ts) number_types) eqn:NM.
  { destruct (_ && _) in H; [discriminate|]. injection H as <-. apply str_mem_In in NM. unfold num_schema. simpl in NM.
    repeat (destruct NM as [NM|NM]; [rewrite <- NM; discriminate|]). destruct NM. }
  rewrite !(not_in_neq _ _ _ N) in H by (simpl; tauto).
  destruct (_ =?s _) in H; [injection H as <-; discriminate|]. destruct (_ =?s _) in H.
  { destruct (find_type m _); [|discriminate]. apply rbind_Ok in H. destruct H as (i & _ & E). injection E as <-. discriminate. }
  destruct (_ =?s _) in H.
  { destruct (find_type m _); [|discriminate]. apply rbind_Ok in H. destruct H as (i & _ & E). injection E as <-. discriminate. }
  destruct (_ =?s _) in H; [|injection H as <-; discriminate]. destruct (negb _) in H; [injection H as <-; discriminate|].
  apply rbind_Ok in H. destruct H as (i & _ & E). injection E as <-. discriminate.
Qed.
Lemma param_type_back fuel ts ts' s : input_type_back sch ts ts' -> schema_at fuel ts "" = Ok s -> param_type s = Ok ts'.
Proof.
  intros B H. destruct B as [ts E|ts I|ts I|ts I|ts its E D I|ts its E D N|ts NE N].
  - destruct fuel; [discriminate|]. cbn [oas_schema] in H. rewrite E in H. cbn in H. injection H as <-. reflexivity.
  - destruct fuel; [discriminate|]. cbn [oas_schema] in H. unfold num_schema in H. simpl in I.
    repeat (destruct I as [I|I]; [rewrite <- I in H; cbn in H; injection H as <-; reflexivity|]). destruct I.
  - destruct fuel; [discriminate|]. cbn [oas_schema] in H. unfold num_schema in H. simpl in I.
    repeat (destruct I as [I|I]; [rewrite <- I in H; cbn in H; injection H as <-; reflexivity|]). destruct I.
  - destruct (text_schema _ _ _ _ I H) as (T & R & EN). unfold param_type, oas_type_ref. rewrite R, T, EN. reflexivity.
  - destruct fuel as [|fuel]; [discriminate|]. cbn [oas_schema] in H. rewrite E in H. cbn in H. destruct D as (td & D & <-). apply (find_type_spec _ _ Hm) in D. rewrite D in H.
    apply rbind_Ok in H. destruct H as (i & S & Q). injection Q as <-. destruct (text_schema _ _ _ _ I S) as (T & _).
    unfold param_type. cbn -[String.eqb]. rewrite T. reflexivity.
  - destruct fuel as [|fuel]; [discriminate|]. cbn [oas_schema] in H. rewrite E in H. cbn in H. destruct D as (td & D & <-). apply (find_type_spec _ _ Hm) in D. rewrite D in H.
    apply rbind_Ok in H. destruct H as (i & S & Q). injection Q as <-. assert (T := nontext_schema _ _ _ _ N S).
    unfold param_type. cbn -[String.eqb]. destruct (o_type i =?s "string") eqn:X; [apply seqb_eq in X; contradiction|]. reflexivity.
  - apply (reference_schema _ _ _ _ N) in H. subst s. unfold param_type. rewrite ref_back. destruct (ts_type ts =?s "") eqn:X; [apply seqb_eq in X; contradiction|]. reflexivity.
Qed.

(** an input and the parameter written for it *)
Definition written (fuel : nat) (p : paramspec) (q : oparam) : Prop := param_stands p q /\ schema_at fuel (fd_spec (ps_field p)) "" = Ok (op_schema q).
Lemma inputs_written fuel : forall ins ps body ps' body', oas_inputs f64 m fuel ins ps body = Ok (ps', body') ->
  exists l kept, ps' = ps ++ l /\ without is_body ins kept /\ Forall2 (written fuel) kept l
  /\ ((body' = body /\ forall p, In p ins -> ~ is_body p)
      \/ exists p s, In p ins /\ is_body p /\ schema_at fuel (fd_spec (ps_field p)) "" = Ok s /\ body' = Some (fd_comment (ps_field p), s)).
Proof.
  induction ins as [|p ins IH]; intros ps body ps' body' H; cbn [oas_inputs] in H.
  - injection H as <- <-. exists [], []. split; [symmetry; apply app_nil_r|]. split; [constructor|]. split; [constructor|]. left. split; [reflexivity|intros p []].
  - apply rbind_Ok in H. destruct H as (s & S & H).
    assert (STEP : forall q, param_stands p q -> op_schema q = s -> ~ is_body p -> oas_inputs f64 m fuel ins (ps ++ [q]) body = Ok (ps', body') ->
      exists l kept, ps' = ps ++ l /\ without is_body (p :: ins) kept /\ Forall2 (written fuel) kept l
        /\ ((body' = body /\ forall p', In p' (p :: ins) -> ~ is_body p')
            \/ exists p' s, In p' (p :: ins) /\ is_body p' /\ schema_at fuel (fd_spec (ps_field p')) "" = Ok s /\ body' = Some (fd_comment (ps_field p'), s))).
    { intros q Q QS NB H'. apply IH in H'. destruct H' as (l & kept & E & W & F & B). exists (q :: l), (p :: kept). split; [rewrite E, <- app_assoc; reflexivity|].
      split; [apply wo_keep; assumption|]. split; [constructor; [split; [exact Q|rewrite QS; exact S]|exact F]|].
      destruct B as [[B1 B2]|(p' & s' & I & B)]; [left; split; [exact B1|intros p' [<-|I]; [exact NB|exact (B2 _ I)]]|right; exists p', s'; split; [right; exact I|exact B]]. }
    destruct (ps_path p) eqn:EP.
    { apply (STEP _ (pst_path p s EP) eq_refl); [intros (X & _); congruence|exact H]. }
    destruct (ps_query p =?s "") eqn:EQ; cbn [negb] in H.
    + apply seqb_eq in EQ. destruct (ps_header p =?s "") eqn:EH; cbn [negb] in H.
      * apply seqb_eq in EH. assert (B : is_body p) by (repeat split; assumption).
        apply IH in H. destruct H as (l & kept & E & W & F & X). exists l, kept. split; [exact E|].
        split; [apply wo_drop; assumption|]. split; [exact F|]. right.
        destruct X as [[X _]|(p' & s' & I & X)]; [exists p, s; split; [left; reflexivity|auto]|exists p', s'; split; [right; exact I|exact X]].
      * assert (NE : ps_header p <> "") by (intros X; rewrite X in EH; discriminate).
        apply (STEP _ (pst_header p s EP EQ NE) eq_refl); [intros (_ & _ & X); congruence|exact H].
    + assert (NE : ps_query p <> "") by (intros X; rewrite X in EQ; discriminate).
      apply (STEP _ (pst_query p s EP NE) eq_refl); [intros (_ & X & _); congruence|exact H].
Qed.
Lemma without_In {A} (P : A -> Prop) l l' x : without P l l' -> In x l' -> In x l /\ ~ P x.
Proof.
  intros W. induction W as [|y l l' Y W IH|y l l' Y W IH]; intros I; [destruct I|destruct (IH I); simpl; auto|].
  destruct I as [->|I]; [simpl; auto|destruct (IH I); simpl; auto].
Qed.
Definition query_pieces (l : list paramspec) : list string :=
  map query_piece_of (filter (fun p => negb (ps_path p) && negb (ps_query p =?s "")) l).
Lemma params_back fuel path kept : forall l, Forall2 (written fuel) kept l ->
  (forall i, In i kept -> exists ts, input_type_back sch (fd_spec (ps_field i)) ts) ->
  (forall i, In i kept -> ps_path i = true -> contains ("{" +++ letters (fd_name (ps_field i)) +++ "}") path = true) ->
  exists gs, convert_params path l = Ok (gs, query_pieces kept) /\ Forall2 (input_back sch) kept gs.
Proof.
  induction kept as [|p kept IH]; intros l F T C; inversion F as [|? q ? l' [S Q] F2]; subst; [exists []; split; [reflexivity|constructor]|].
  destruct (IH l' F2 (fun i I => T i (or_intror I)) (fun i I => C i (or_intror I))) as (gs & G & GB).
  destruct (T p (or_introl eq_refl)) as (ts & TB). assert (PT := param_type_back _ _ _ _ TB Q). cbn [convert_params].
  unfold query_pieces. cbn [filter]. destruct S as [p s EP|p s EP EQ|p s EP EQ EH]; cbn [op_schema] in *; unfold convert_param; cbn [op_in op_pname op_desc op_req op_schema];
    rewrite identifier_letters, PT, EP.
  - change ("path" =?s "query") with false. change ("path" =?s "path") with true. cbv iota.
    rewrite (C p (or_introl eq_refl) EP). cbn [rbind negb andb]. rewrite G. cbn [rbind app]. eexists. split; [reflexivity|]. constructor; [apply ib_path; assumption|exact GB].
  - change ("query" =?s "query") with true. cbn [rbind negb andb]. rewrite G. cbn [rbind app]. destruct (ps_query p =?s "") eqn:X; [apply seqb_eq in X; contradiction|].
    cbn [negb map]. eexists. split; [reflexivity|]. constructor; [apply ib_query; assumption|exact GB].
  - change ("header" =?s "query") with false. change ("header" =?s "path") with false. change ("header" =?s "header") with true. cbn [rbind negb andb]. rewrite G.
    rewrite EQ. cbn [rbind app negb String.eqb]. eexists. split; [reflexivity|]. constructor; [apply ib_header; assumption|exact GB].
Qed.
Lemma body_back_ref fuel p s mth : In mth ["PUT"; "POST"] -> reference_type (fd_spec (ps_field p)) -> schema_at fuel (fd_spec (ps_field p)) "" = Ok s ->
  exists g, convert_body mth (Some (fd_comment (ps_field p), s)) true = [g] /\ body_back p g.
Proof.
  intros I [NE N] S. apply (reference_schema _ _ _ _ N) in S. subst s. unfold convert_body. rewrite ref_back.
  destruct (ts_type (fd_spec (ps_field p)) =?s "") eqn:X; [apply seqb_eq in X; contradiction|].
  destruct I as [<-|[<-|[]]]; (eexists; split; reflexivity).
Qed.
Lemma without_queries ins : without (fun i => ~ is_query i) ins (filter (fun p => negb (ps_path p) && negb (ps_query p =?s "")) ins).
Proof.
  assert (D : forall p, negb (ps_path p) && negb (ps_query p =?s "") = true <-> is_query p).
  { intros p. unfold is_query. rewrite andb_true_iff, !negb_true_iff. split; intros [A B]; (split; [exact A|]).
    - intros X. rewrite X in B. discriminate.
    - destruct (ps_query p =?s "") eqn:E; [apply seqb_eq in E; contradiction|reflexivity]. }
  induction ins as [|p ins IH]; [constructor|]. cbn [filter]. destruct (_ && _) eqn:E.
  - apply wo_keep; [|exact IH]. apply D in E. tauto.
  - apply wo_drop; [|exact IH]. intros X. apply D in X. congruence.
Qed.
Lemma kept_queries ins kept : without is_body ins kept ->
  filter (fun p => negb (ps_path p) && negb (ps_query p =?s "")) kept = filter (fun p => negb (ps_path p) && negb (ps_query p =?s "")) ins.
Proof.
  intros W. induction W as [|p l l' (A & B & _) W IH|p l l' P W IH]; [reflexivity| |].
  - cbn [filter]. rewrite A, B. cbn. exact IH.
  - cbn [filter]. rewrite IH. reflexivity.
Qed.

(** ** Outputs *)
Lemma survives_ref fuel ts s : survives sch ts -> schema_at fuel ts "" = Ok s -> o_ref s = "" \/ oas_type_ref s <> "".
Proof.
  intros V H. destruct fuel as [|fuel]; [discriminate|]. destruct V as [V|[[D NE]|[E V]]].
  - left. cbn [oas_schema] in H. unfold num_schema in H. simpl in V.
    repeat (destruct V as [V|V]; [rewrite <- V in H; cbn in H; injection H as <-; reflexivity|]). destruct V.
  - right. assert (NB := not_builtin sch m Hm _ D). rewrite (reference_schema (S fuel) ts "" s); [rewrite ref_back; exact NE| |exact H].
    intros I. apply NB. simpl in *. tauto.
  - left. cbn [oas_schema] in H. rewrite E in H. cbn in H. destruct (find_type m (ts_items ts)) as [td|] eqn:F; [|discriminate].
    apply rbind_Ok in H. destruct H as (i & H & Q). injection Q as <-. reflexivity.
Qed.
Lemma output_back fuel ts s : survives sch ts -> schema_at fuel ts "" = Ok s ->
  exists ts', output_type s = Ok ts' /\ ts_type ts' = ts_type ts /\ (ts_type ts = "Array" -> ts_items ts' = ts_items ts).
Proof.
  intros V H. destruct (field_back f64 sch m Hm _ _ _ V H) as (ts' & E & T). exists ts'. split; [|exact T]. unfold output_type.
  destruct (survives_ref _ _ _ V H) as [R|R].
  - rewrite R. cbn. unfold oas_type_ref in E. rewrite R in E. cbn in E. exact E.
  - destruct (oas_type_ref s =?s "") eqn:X; [apply seqb_eq in X; contradiction|]. cbn [negb] in E.
    destruct (o_ref s =?s "") eqn:Y; [apply seqb_eq in Y; exfalso; apply R; unfold oas_type_ref; rewrite Y; reflexivity|]. exact E.
Qed.
Definition header_written (fuel : nat) (p : paramspec) (q : string * (string * oas)) : Prop :=
  fst q = ps_header p /\ fst (snd q) = fd_comment (ps_field p) /\ schema_at fuel (fd_spec (ps_field p)) "" = Ok (snd (snd q)).
Lemma outputs_written fuel : forall outs hs body hs' body', oas_outputs f64 m fuel outs hs body = Ok (hs', body') ->
  (forall a p b q c, outs = a ++ p :: b ++ q :: c -> ps_header p <> "" -> ps_header q <> ps_header p) ->
  (forall p, In p outs -> ps_header p <> "" -> ~ In (ps_header p) (map fst hs)) ->
  exists l kept, hs' = hs ++ l /\ without is_payload outs kept /\ Forall2 (header_written fuel) kept l
  /\ ((body' = body /\ forall p, In p outs -> ~ is_payload p)
      \/ exists p s, In p outs /\ is_payload p /\ schema_at fuel (fd_spec (ps_field p)) "" = Ok s /\ body' = Some s).
Proof.
  induction outs as [|p outs IH]; intros hs body hs' body' H U FR; cbn [oas_outputs] in H.
  - injection H as <- <-. exists [], []. split; [symmetry; apply app_nil_r|]. split; [constructor|]. split; [constructor|]. left. split; [reflexivity|intros p []].
  - apply rbind_Ok in H. destruct H as (s & S & H).
    assert (U' : forall a q b r c, outs = a ++ q :: b ++ r :: c -> ps_header q <> "" -> ps_header r <> ps_header q)
      by (intros a q b r c E; apply (U (p :: a) q b r c); rewrite E; reflexivity).
    destruct (ps_header p =?s "") eqn:EH; cbn [negb] in H.
    + apply seqb_eq in EH. apply IH in H; [|exact U'|intros q I; apply FR; right; exact I]. destruct H as (l & kept & E & W & F & B).
      exists l, kept. split; [exact E|]. split; [apply wo_drop; assumption|]. split; [exact F|]. right.
      destruct B as [[B _]|(p' & s' & I & B)]; [exists p, s; split; [left; reflexivity|auto]|exists p', s'; split; [right; exact I|exact B]].
    + assert (NE : ps_header p <> "") by (intros X; rewrite X in EH; discriminate).
      rewrite put_fresh in H by (apply FR; [left; reflexivity|exact NE]). apply IH in H; [|exact U'|].
      * destruct H as (l & kept & E & W & F & B). eexists (_ :: l), (p :: kept). split; [rewrite E, <- app_assoc; reflexivity|].
        split; [apply wo_keep; assumption|]. split; [constructor; [split; [reflexivity|split; [reflexivity|exact S]]|exact F]|].
        destruct B as [[B1 B2]|(p' & s' & I & B)]; [left; split; [exact B1|intros p' [<-|I]; [exact NE|exact (B2 _ I)]]|right; exists p', s'; split; [right; exact I|exact B]].
      * intros q I Q X. rewrite map_app in X. apply in_app_or in X. destruct X as [X|[X|[]]]; [exact (FR q (or_intror I) Q X)|]. cbn [fst] in X.
        apply in_split in I. destruct I as (a & b & ->). apply (U [] p a q b); [reflexivity|exact NE|congruence].
Qed.
Lemma headers_back fuel : forall kept l, Forall2 (header_written fuel) kept l -> (forall o, In o kept -> survives sch (fd_spec (ps_field o))) ->
  exists gs, convert_headers l = Ok gs /\ Forall2 header_back kept gs.
Proof.
  induction kept as [|p kept IH]; intros l F V; inversion F as [|? [h [d s]] ? l' (E1 & E2 & S) F2]; subst; [exists []; split; [reflexivity|constructor]|].
  destruct (IH l' F2 (fun i I => V i (or_intror I))) as (gs & G & GB). cbn [fst snd] in *. subst h d.
  destruct (output_back _ _ _ (V p (or_introl eq_refl)) S) as (ts & T & T1 & T2). cbn [convert_headers]. rewrite T, G. cbn [rbind]. rewrite identifier_letters.
  eexists. split; [reflexivity|]. constructor; [|exact GB]. apply hb; [apply strip_x_bare|exact T1|exact T2].
Qed.

(** ** Exceptions *)
Definition exc_key (x : exceptionspec) : string := if negb (xc_status x =? 0)%Z then sprint (xc_status x) else "default".
Definition exc_resp (x : exceptionspec) : oresponse :=
  mkOResp (if xc_comment x =?s "" then "Exceptional response" else xc_comment x) [] (Some (oas_ref (xc_type x))).
Lemma exceptions_written xs : forall acc, NoDup (map exc_key xs) -> (forall x, In x xs -> ~ In (exc_key x) (map fst acc)) ->
  oas_exceptions xs acc = acc ++ map (fun x => (exc_key x, exc_resp x)) xs.
Proof.
  unfold oas_exceptions. induction xs as [|x xs IH]; intros acc N F; [symmetry; apply app_nil_r|]. cbn [fold_left]. fold (exc_key x) (exc_resp x).
  rewrite put_fresh by (apply F; left; reflexivity). inversion N as [|? ? NI N']; subst. rewrite IH; [rewrite <- app_assoc; reflexivity|exact N'|].
  intros y I X. rewrite map_app in X. apply in_app_or in X. destruct X as [X|[X|[]]]; [exact (F y (or_intror I) X)|]. cbn [fst] in X.
  apply NI. rewrite X. apply in_map. exact I.
Qed.
Definition exc_code_ok (x : exceptionspec) : Prop := xc_status x = 0%Z \/ (100 <= xc_status x < 200)%Z \/ (400 <= xc_status x < 1000)%Z.
Lemma exc_key_success x : exc_code_ok x -> success (exc_key x) = false.
Proof.
  intros H. unfold exc_key. destruct (Z.eqb_spec (xc_status x) 0) as [E|E]; [reflexivity|]. cbn [negb].
  assert (B : (100 <= xc_status x < 1000)%Z) by (destruct H as [H|[H|H]]; lia). destruct (code_facts _ B) as (_ & _ & _ & _ & S).
  destruct (success (sprint (xc_status x))) eqn:Q; [|reflexivity]. destruct S as [S _]. specialize (S eq_refl). destruct H as [H|[H|H]]; lia.
Qed.
Lemma exc_key_inj x y : exc_code_ok x -> exc_code_ok y -> exc_key x = exc_key y -> xc_status x = xc_status y.
Proof.
  intros H K. unfold exc_key. destruct (Z.eqb_spec (xc_status x) 0) as [E|E], (Z.eqb_spec (xc_status y) 0) as [E'|E']; cbn [negb]; intros X.
  - congruence.
  - assert (B : (100 <= xc_status y < 1000)%Z) by (destruct K as [K|[K|K]]; lia). destruct (code_facts _ B) as (_ & _ & _ & D & _). congruence.
  - assert (B : (100 <= xc_status x < 1000)%Z) by (destruct H as [H|[H|H]]; lia). destruct (code_facts _ B) as (_ & _ & _ & D & _). congruence.
  - apply sprint_inj; [destruct H as [H|[H|H]]; lia|destruct K as [K|[K|K]]; lia|exact X].
Qed.
Lemma exc_keys_nodup xs : (forall x, In x xs -> exc_code_ok x) -> NoDup (map xc_status xs) -> NoDup (map exc_key xs).
Proof.
  induction xs as [|x xs IH]; intros H N; [constructor|]. inversion N as [|? ? NI N']; subst. cbn [map]. constructor; [|apply IH; [intros y I; apply H; right; exact I|exact N']].
  intros X. apply in_map_iff in X. destruct X as (y & E & I). apply NI. rewrite <- (exc_key_inj y x); [apply in_map; exact I|apply H; right; exact I|apply H; left; reflexivity|exact E].
Qed.
Lemma or_else_if d s : (if s =?s "" then d else s) = or_else d s.
Proof. destruct s; reflexivity. Qed.
Lemma exception_back_one x : exc_code_ok x -> exists g, convert_exception (exc_key x) (exc_resp x) = Ok g /\ exception_back x g.
Proof.
  intros H. unfold convert_exception, exc_key, exc_resp. cbn [or_body or_desc]. rewrite ref_back.
  change (negb (o_ref (oas_ref (xc_type x)) =?s "")) with true. cbv iota. rewrite or_else_if. destruct (Z.eqb_spec (xc_status x) 0) as [E|E]; cbn [negb].
  - change ("default" =?s "default") with true. cbn [rbind]. change (atoi "0") with (Some 0%Z). eexists. split; [reflexivity|]. unfold exception_back. rewrite E. reflexivity.
  - assert (B : (100 <= xc_status x < 1000)%Z) by (destruct H as [H|[H|H]]; lia). destruct (code_facts _ B) as (A1 & A2 & A3 & A4 & _).
    destruct (sprint (xc_status x) =?s "default") eqn:Q; [apply seqb_eq in Q; contradiction|]. rewrite A3. cbn [rbind]. rewrite A1. cbn [rbind]. rewrite A2.
    eexists. split; reflexivity.
Qed.
Lemma exceptions_back k xs : (forall x, In x xs -> exc_code_ok x /\ exc_key x <> k) ->
  exists gs, convert_exceptions k (map (fun x => (exc_key x, exc_resp x)) xs) = Ok gs /\ Forall2 exception_back xs gs.
Proof.
  induction xs as [|x xs IH]; intros H; [exists []; split; [reflexivity|constructor]|].
  destruct (IH (fun y I => H y (or_intror I))) as (gs & G & GB). destruct (H x (or_introl eq_refl)) as [HX NK]. destruct (exception_back_one x HX) as (g & E & B).
  cbn [map convert_exceptions]. destruct (exc_key x =?s k) eqn:Q; [apply seqb_eq in Q; contradiction|]. rewrite E, G. eexists. split; [reflexivity|constructor; assumption].
Qed.

(** ** One action *)
Definition code_ok (e : expectedspec) : Prop := (200 <= xp_status e < 400)%Z.
Lemma action_there_and_back fuel h op : action_ok sch h -> oas_operation f64 m fuel h = Ok op ->
  (exists g, convert_path (oas_path m h) op (h_method h) = Ok g /\ action_back sch h g) /\ keys_once (oo_responses op) /\ one_success op.
Proof.
  intros (_ & _ & NA & TG & IT & IP & IB & UB & (e & HE & ST & OS & UO & DH) & NX & CX) H.
  unfold oas_operation in H. apply rbind_Ok in H. destruct H as ([ps body] & HI & H). rewrite HE in H.
  apply rbind_Ok in H. destruct H as ([hs ob] & HO & E). injection E as <-.
  assert (BS : (100 <= xp_status e < 1000)%Z) by lia.
  destruct (code_facts _ BS) as (A1 & A2 & A3 & A4 & A5). assert (SX : success (sprint (xp_status e)) = true) by (apply A5; exact ST).
  set (r := mkOResp _ hs ob) in *. set (k := sprint (xp_status e)) in *.
  assert (XK : forall x, In x (h_exceptions h) -> exc_key x <> k).
  { intros x I X. assert (Y := exc_key_success x (CX x I)). rewrite X in Y. congruence. }
  assert (RS : oas_exceptions (h_exceptions h) [(k, r)] = (k, r) :: map (fun x => (exc_key x, exc_resp x)) (h_exceptions h)).
  { rewrite exceptions_written; [reflexivity|apply exc_keys_nodup; [exact CX|exact NX]|]. intros x I [X|[]]. exact (XK x I (eq_sym X)). }
  rewrite RS.
  assert (KS : map fst ((k, r) :: map (fun x => (exc_key x, exc_resp x)) (h_exceptions h)) = k :: map exc_key (h_exceptions h)).
  { simpl. rewrite map_map. reflexivity. }
  split; [|split].
  - destruct (tags_back h NA TG) as (tmp & TT & T1 & T2).
    destruct (inputs_written fuel _ _ _ _ _ HI) as (l & kept & EL & W & F & B). simpl in EL. subst ps.
    destruct (params_back fuel (oas_path m h) kept l F) as (gs & G & GB).
    { intros i I. destruct (without_In _ _ _ _ W I) as [I' NB]. exact (IT i I' NB). }
    { intros i I P. destruct (without_In _ _ _ _ W I) as [I' NB]. destruct (IP i I' P) as (q & Q & a & b & E). apply contains_spec.
      unfold oas_path. rewrite (proj1 (new_model_inv _ _ Hm)), (cut_query_only _ _ Q), E. exists a, b. rewrite !append_assoc. reflexivity. }
    destruct (outputs_written fuel _ _ _ _ _ HO DH) as (lh & keph & EH & WH & FH & BH); [intros p I N []|]. simpl in EH. subst hs.
    destruct (headers_back fuel keph lh FH) as (gh & GH & GHB). { intros o I. apply OS. exact (proj1 (without_In _ _ _ _ WH I)). }
    destruct (exceptions_back k (h_exceptions h)) as (gx & GX & GXB). { intros x I. split; [exact (CX x I)|exact (XK x I)]. }
    assert (BB : exists gb, convert_body (h_method h) body true = gb /\ bodies_back is_body body_back (h_inputs h) gb).
    { destruct B as [[-> NB]|(p & s & I & IBp & S & ->)].
      - exists []. split; [unfold convert_body; destruct (str_mem _ _); reflexivity|]. left. auto.
      - destruct (IB p I IBp) as [M RT]. destruct (body_back_ref fuel p s _ M RT S) as (g & G1 & G2). exists [g]. split; [exact G1|]. right. exists g.
        split; [reflexivity|]. split; [exists p; auto|]. intros q Iq Bq. rewrite <- (at_most_one_eq _ _ _ _ UB I Iq IBp Bq). exact G2. }
    destruct BB as (gb & GBE & GBB).
    assert (OB : exists go, convert_expected k r = Ok go /\ expected_back e go).
    { unfold convert_expected. destruct (k =?s "default") eqn:KD; [apply seqb_eq in KD; contradiction|]. rewrite A3. cbn [negb andb]. rewrite A1. cbn [rbind].
      unfold r at 1. cbn [or_headers]. rewrite GH. cbn [rbind]. unfold r at 1. cbn [or_body].
      destruct BH as [[-> NP]|(p & s & I & Pp & S & ->)].
      - cbn [rbind]. eexists. split; [reflexivity|]. split; [exact A2|]. split; [unfold r; cbn [or_desc]; rewrite or_else_if; reflexivity|]. split; [reflexivity|].
        exists keph, gh, []. split; [exact WH|]. split; [exact GHB|]. split; [left; auto|reflexivity].
      - destruct (output_back _ _ _ (OS p I) S) as (ts & T & X1 & X2). rewrite T. cbn [rbind]. eexists. split; [reflexivity|]. split; [exact A2|].
        split; [unfold r; cbn [or_desc]; rewrite or_else_if; reflexivity|]. split; [reflexivity|].
        exists keph, gh, [mkParam "" "" false (mkField "body" "" [] false VNil ts)]. split; [exact WH|]. split; [exact GHB|]. split; [|reflexivity].
        right. eexists. split; [reflexivity|]. split; [exists p; auto|]. intros q Iq Pq. rewrite <- (at_most_one_eq _ _ _ _ UO I Iq Pp Pq). constructor; assumption. }
    destruct OB as (go & GO & GOB).
    unfold convert_path. cbn [oo_tags oo_params oo_body oo_bodyreq oo_responses oo_id oo_summary]. rewrite TT, G. cbn [rbind]. rewrite GBE.
    unfold expected_status. cbn [find fst]. fold k. rewrite SX. cbn [get]. rewrite seqb_refl, GO. cbn [rbind]. cbn [convert_exceptions]. rewrite seqb_refl, GX. cbn [rbind].
    eexists. split; [reflexivity|]. split; [reflexivity|]. split; [reflexivity|]. split; [reflexivity|]. split; [reflexivity|]. cbn [h_annos h_path h_inputs h_expected h_exceptions].
    split; [exact T1|]. split; [exact T2|]. split; [|split; [|split]].
    + exists (oas_path m h), (filter (fun p => negb (ps_path p) && negb (ps_query p =?s "")) (h_inputs h)). split; [unfold oas_path; rewrite (proj1 (new_model_inv _ _ Hm)); apply cut_query_part|].
      split; [apply without_queries|]. unfold query_pieces. rewrite (kept_queries _ _ W). destruct (filter _ (h_inputs h)); reflexivity.
    + exists kept, gs, gb. auto.
    + rewrite HE. constructor. exact GOB.
    + exact GXB.
  - unfold keys_once. cbn [oo_responses]. rewrite KS. constructor; [|apply exc_keys_nodup; [exact CX|exact NX]]. intros X. apply in_map_iff in X. destruct X as (x & X & I). exact (XK x I X).
  - unfold one_success. cbn [oo_responses]. rewrite KS.
    assert (Z : forall k', In k' (k :: map exc_key (h_exceptions h)) -> success_status k' -> k' = k).
    { intros k' [X|X] S; [congruence|]. apply in_map_iff in X. destruct X as (x & <- & I). apply success_spec in S. rewrite (exc_key_success x (CX x I)) in S. discriminate. }
    intros k1 k2 I1 I2 S1 S2. rewrite (Z _ I1 S1), (Z _ I2 S2). reflexivity.
Qed.

(** ** All actions *)
Definition flat (ps : list (string * pathitem)) : list (string * (string * ooperation)) :=
  concat (map (fun x => map (pair (fst x)) (snd x)) ps).
Lemma flat_put p mth op ps : ~ In mth (map fst (match get p ps with Some pi => pi | None => [] end)) ->
  Permutation (flat (put p (put mth op (match get p ps with Some pi => pi | None => [] end)) ps)) ((p, (mth, op)) :: flat ps).
Proof.
  intros N. rewrite (put_fresh mth op) by exact N. clear N. induction ps as [|[k v] ps IH]; [apply Permutation_refl|]. cbn [get put]. destruct (p =?s k) eqn:E.
  - apply seqb_eq in E. subst k. unfold flat. cbn [map concat fst snd]. rewrite map_app. cbn [map]. rewrite <- app_assoc. apply Permutation_sym, Permutation_middle.
  - unfold flat in *. cbn [map concat fst snd]. eapply Permutation_trans; [apply Permutation_app_head; exact IH|]. apply Permutation_sym, Permutation_middle.
Qed.
Lemma http_flat fuel : forall hs ps ps', (forall h, In h hs -> In (h_method h) oas_methods) -> export_http f64 m fuel hs ps = Ok ps' ->
  exists ops, Permutation (flat ps') (flat ps ++ ops)
  /\ Forall2 (fun h x => fst x = oas_path m h /\ fst (snd x) = h_method h /\ oas_operation f64 m fuel h = Ok (snd (snd x))) hs ops.
Proof.
  induction hs as [|h hs IH]; intros ps ps' M H; cbn [export_http] in H.
  - injection H as <-. exists []. split; [rewrite app_nil_r; apply Permutation_refl|constructor].
  - assert (MM := M h (or_introl eq_refl)). apply str_mem_In in MM. rewrite MM in H.
    set (pi := match get (oas_path m h) ps with Some pi => pi | None => [] end) in *. destruct (get (h_method h) pi) eqn:G; [discriminate|].
    apply rbind_Ok in H. destruct H as (op & O & H). apply IH in H; [|intros x I; apply M; right; exact I]. destruct H as (ops & P & F).
    exists ((oas_path m h, (h_method h, op)) :: ops). split; [|constructor; auto].
    eapply Permutation_trans; [exact P|]. eapply Permutation_trans; [apply Permutation_app_tail; apply flat_put; apply get_None; exact G|]. apply Permutation_middle.
Qed.
Definition select (pi : pathitem) (mths : list string) : list (string * ooperation) :=
  concat (map (fun mth => match get mth pi with Some op => [(mth, op)] | None => [] end) mths).
Definition read_op (t : string) (x : string * ooperation) : result unit httpdef := convert_path t (snd x) (fst x).
Lemma import_item_each t pi mths : has_prefix "x-" t = false -> import_item t pi mths = each (read_op t) (select pi mths).
Proof.
  intros X. induction mths as [|mth mths IH]; [reflexivity|]. cbn [import_item]. unfold select. cbn [map concat]. fold (select pi mths).
  destruct (get mth pi) as [op|]; [|exact IH]. rewrite X, IH. reflexivity.
Qed.
Lemma select_In pi mths x : In x (select pi mths) <-> In (fst x) mths /\ get (fst x) pi = Some (snd x).
Proof.
  unfold select. induction mths as [|mth mths IH]; [simpl; tauto|]. cbn [map concat]. rewrite in_app_iff, IH. destruct x as [k op]. cbn [fst snd].
  destruct (get mth pi) as [o|] eqn:G; simpl; split.
  - intros [[E|[]]|[A B]]; [injection E as -> ->; auto|auto].
  - intros [[->|A] B]; [left; left; congruence|auto].
  - intros [[]|[A B]]; auto.
  - intros [[->|A] B]; [congruence|auto].
Qed.
Lemma select_keys pi mths k : In k (map fst (select pi mths)) -> In k mths.
Proof. intros I. apply in_map_iff in I. destruct I as (x & <- & I). apply select_In in I. exact (proj1 I). Qed.
Lemma select_nodup pi mths : NoDup mths -> NoDup (map fst (select pi mths)).
Proof.
  intros N. induction N as [|mth mths NI N IH]; [constructor|]. unfold select. cbn [map concat]. fold (select pi mths).
  destruct (get mth pi); [|exact IH]. cbn [app map fst]. constructor; [|exact IH]. intros X. apply NI. exact (select_keys _ _ _ X).
Qed.
Lemma select_perm pi : NoDup (map fst pi) -> (forall x, In x pi -> In (fst x) import_methods) -> Permutation pi (select pi import_methods).
Proof.
  intros N M. apply NoDup_Permutation.
  - exact (NoDup_map_inv _ _ N).
  - apply (NoDup_map_inv fst). apply select_nodup. repeat constructor; simpl; intuition discriminate.
  - intros x. rewrite select_In. destruct x as [k op]. cbn [fst snd]. rewrite (get_In _ _ _ N). split; [|tauto]. intros I. split; [exact (M _ I)|exact I].
Qed.
Definition read_flat (x : string * (string * ooperation)) : result unit httpdef := read_op (fst x) (snd x).
Lemma each_app {A B} (f : A -> result unit B) l l' : each f (l ++ l') = (x <- each f l ;; y <- each f l' ;; Ok (x ++ y)).
Proof.
  induction l as [|a l IH]; cbn [app each]; [destruct (each f l'); reflexivity|]. rewrite IH. destruct (f a); try reflexivity. cbn [rbind].
  destruct (each f l); try reflexivity. cbn [rbind]. destruct (each f l'); reflexivity.
Qed.
Lemma each_map {A B C} (g : A -> B) (f : B -> result unit C) l : each f (map g l) = each (fun a => f (g a)) l.
Proof. induction l as [|a l IH]; [reflexivity|]. cbn [map each]. rewrite IH. reflexivity. Qed.
Definition flat_sel (ps : list (string * pathitem)) : list (string * (string * ooperation)) :=
  concat (map (fun x => map (pair (fst x)) (select (snd x) import_methods)) ps).
Lemma import_paths_flat ps : (forall x, In x ps -> has_prefix "x-" (fst x) = false) -> import_paths ps = each read_flat (flat_sel ps).
Proof.
  induction ps as [|[t pi] ps IH]; intros H; [reflexivity|]. cbn [import_paths]. unfold flat_sel. cbn [map concat fst snd]. fold (flat_sel ps).
  rewrite each_app, each_map, <- IH by (intros x I; apply H; right; exact I). rewrite import_item_each by (exact (H _ (or_introl eq_refl))).
  unfold read_flat. cbn [fst snd]. reflexivity.
Qed.
Lemma flat_sel_perm ps : (forall x, In x ps -> NoDup (map fst (snd x)) /\ forall y, In y (snd x) -> In (fst y) import_methods) -> Permutation (flat ps) (flat_sel ps).
Proof.
  induction ps as [|[t pi] ps IH]; intros H; [constructor|]. unfold flat, flat_sel. cbn [map concat fst snd]. destruct (H _ (or_introl eq_refl)) as [N M].
  apply Permutation_app; [apply Permutation_map; apply select_perm; assumption|]. apply IH. intros x I. apply H. right. exact I.
Qed.

(** ** Types come back *)
Definition convertible (s : oas) : Prop := exists ts, convert_oas s = Ok ts.
Lemma each_total {A B} (f : A -> result unit B) l : (forall a, In a l -> exists b, f a = Ok b) -> exists bs, each f l = Ok bs.
Proof.
  induction l as [|a l IH]; intros H; [exists []; reflexivity|]. destruct (H a (or_introl eq_refl)) as (b & E). destruct (IH (fun x I => H x (or_intror I))) as (bs & F).
  cbn [each]. rewrite E, F. eexists. reflexivity.
Qed.
Lemma object_convertible d ps req : (forall x, In x ps -> convertible (snd x)) -> convertible (oas_object d ps req).
Proof.
  intros H. unfold convertible. rewrite convert_oas_eq. cbn -[convert_prop each]. destruct (each_total (convert_prop req) ps) as (fs & F).
  { intros x I. destruct (H x I) as (ts & T). unfold convert_prop. destruct (negb _); [eexists; reflexivity|]. rewrite T. eexists. reflexivity. }
  rewrite F. eexists. reflexivity.
Qed.
Lemma put_all {A} (P : A -> Prop) k v (l : list (string * A)) : P v -> (forall x, In x l -> P (snd x)) -> forall x, In x (put k v l) -> P (snd x).
Proof.
  intros V. induction l as [|[k' v'] l IH]; intros H x I; cbn [put] in I; [destruct I as [<-|[]]; exact V|]. destruct (k =?s k').
  - destruct I as [<-|I]; [exact V|apply H; right; exact I].
  - destruct I as [<-|I]; [apply (H (k', v')); left; reflexivity|]. apply IH; [intros y J; apply H; right; exact J|exact I].
Qed.
Lemma array_convertible d i : convertible i -> convertible (oas_array d i).
Proof. intros (ts & T). unfold convertible. rewrite convert_oas_eq. cbn -[convert_oas]. destruct (negb _); [eexists; reflexivity|]. rewrite T. eexists. reflexivity. Qed.
Lemma num_convertible ts : In (ts_type ts) number_types -> convertible (num_schema f64 ts).
Proof. intros I. unfold num_schema. simpl in I. repeat (destruct I as [I|I]; [rewrite <- I; eexists; reflexivity|]). destruct I. Qed.
Lemma schema_convertible : forall fuel ts name s, schema_at fuel ts name = Ok s -> convertible s.
Proof.
  induction fuel as [|fuel IH]; intros ts name s H; [discriminate|]. cbn [oas_schema] in H.
  destruct (_ =?s _) in H; [injection H as <-; eexists; reflexivity|].
  destruct (str_mem (ts_type ts) number_types) eqn:NM. { destruct (_ && _) in H; [discriminate|]. injection H as <-. apply num_convertible. apply str_mem_In. exact NM. }
  destruct (_ =?s _) in H; [injection H as <-; eexists; reflexivity|].
  destruct (_ =?s _) in H; [injection H as <-; eexists; reflexivity|].
  destruct (_ =?s _) in H; [injection H as <-; eexists; reflexivity|].
  destruct (_ =?s _) in H; [injection H as <-; eexists; reflexivity|].
  destruct (_ =?s _) in H; [injection H as <-; eexists; reflexivity|].
  destruct (_ =?s _) in H; [injection H as <-; eexists; reflexivity|].
  destruct (_ =?s _) in H.
  { destruct (find_type m _); [|discriminate]. apply rbind_Ok in H. destruct H as (i & S & E). injection E as <-. apply array_convertible. exact (IH _ _ _ S). }
  destruct (_ =?s _) in H.
  { destruct (find_type m _); [|discriminate]. apply rbind_Ok in H. destruct H as (i & S & E). injection E as <-. eexists. reflexivity. }
  destruct (_ =?s _) in H; [|injection H as <-; eexists; reflexivity]. destruct (negb _) in H; [injection H as <-; eexists; reflexivity|].
  apply rbind_Ok in H. destruct H as (ps & G & E). injection E as <-. apply object_convertible.
  assert (Z : forall fs acc ps0, (forall x, In x acc -> convertible (snd x)) ->
    (fix go (fs : list fielddef) (acc : list (string * oas)) : result unit (list (string * oas)) :=
                   match fs with
                   | [] => Ok acc
                   | f :: r => s <- schema_at fuel (fd_spec f) "" ;; go r (put (fd_name f) s acc)
                   end) fs acc = Ok ps0 -> forall x, In x ps0 -> convertible (snd x)).
  { clear G. intros fs. induction fs as [|f fs IHf]; intros acc ps0 A G; [injection G as <-; exact A|]. apply rbind_Ok in G. destruct G as (s & S & G).
    eapply IHf; [|exact G]. apply put_all; [exact (IH _ _ _ S)|exact A]. }
  apply (Z _ _ _ (fun x (I : In x []) => match I with end) G).
Qed.
Lemma fields_convertible fuel : forall fs req ps req' ps', (forall x, In x ps -> convertible (snd x)) -> export_fields f64 m fuel fs req ps = Ok (req', ps') ->
  forall x, In x ps' -> convertible (snd x).
Proof.
  induction fs as [|f fs IH]; intros req ps req' ps' A H; cbn [export_fields] in H; [injection H as <- <-; exact A|].
  apply rbind_Ok in H. destruct H as (s & S & H). eapply IH; [|exact H]. apply put_all; [exact (schema_convertible _ _ _ _ S)|exact A].
Qed.
Lemma string_convertible fuel td fmt s : In (ts_type (td_spec td)) text_types -> export_string f64 m fuel td fmt = Ok s -> o_ref s = "" /\ convertible s.
Proof.
  intros I H. unfold export_string in H. apply rbind_Ok in H. destruct H as (x & S & E). injection E as <-. destruct (text_schema _ _ _ _ I S) as (T & R & _). cbn [o_ref].
  split; [exact R|]. unfold convertible. rewrite convert_oas_eq. cbn [o_type]. cbv zeta. rewrite T. eexists. reflexivity.
Qed.
Lemma typedef_convertible fuel td s : export_typedef f64 m fuel td = Ok s -> o_ref s = "" /\ convertible s.
Proof.
  unfold export_typedef. intros H.
  destruct (_ =?s _) in H.
  { unfold export_struct in H. apply rbind_Ok in H. destruct H as ([req ps] & F & E). injection E as <-. split; [reflexivity|]. apply object_convertible.
    eapply fields_convertible; [|exact F]. intros x []. }
  destruct (_ =?s _) in H.
  { unfold export_array in H. destruct (find_type m _); [|discriminate]. apply rbind_Ok in H. destruct H as (i & S & E). injection E as <-. split; [reflexivity|].
    apply array_convertible. exact (schema_convertible _ _ _ _ S). }
  destruct (_ =?s _) in H.
  { unfold export_map in H. destruct (find_type m _); [|discriminate]. apply rbind_Ok in H. destruct H as (i & S & E). injection E as <-. split; [reflexivity|]. eexists. reflexivity. }
  destruct (_ =?s "String") eqn:E1 in H. { apply seqb_eq in E1. apply (string_convertible fuel td None); [rewrite E1; simpl; tauto|exact H]. }
  destruct (_ =?s _) in H; [injection H as <-; split; [reflexivity|eexists; reflexivity]|].
  destruct (_ =?s _) in H; [injection H as <-; split; [reflexivity|]|]. { unfold convertible. rewrite convert_oas_eq. eexists. reflexivity. }
  destruct (str_mem _ _) eqn:NM in H. { injection H as <-. apply str_mem_In in NM. split; [|apply num_convertible; exact NM]. unfold num_schema. destruct (oas_numeric _) as [[a b] c]. reflexivity. }
  destruct (_ =?s "UUID") eqn:E2 in H. { apply seqb_eq in E2. apply (string_convertible fuel td (Some "uuid")); [rewrite E2; simpl; tauto|exact H]. }
  destruct (_ =?s _) in H; [injection H as <-; split; [reflexivity|eexists; reflexivity]|].
  destruct (_ =?s "Timestamp") eqn:E3 in H; [|discriminate]. apply seqb_eq in E3. apply (string_convertible fuel td (Some "date-time")); [rewrite E3; simpl; tauto|exact H].
Qed.
Lemma import_types_total all ss : (forall x, In x ss -> o_ref (snd x) = "" /\ convertible (snd x)) ->
  exists tds, import_types all ss = Ok tds /\ forall n, In n (map td_name tds) -> In n (map fst ss).
Proof.
  induction ss as [|[n s] ss IH]; intros H; [exists []; split; [reflexivity|tauto]|]. destruct (IH (fun x I => H x (or_intror I))) as (tds & T & N).
  destruct (H _ (or_introl eq_refl)) as [R (ts & C)]. cbn [snd] in R, C. cbn [import_types]. rewrite T.
  assert (TR : oas_type_ref s = "") by (unfold oas_type_ref; rewrite R; reflexivity). rewrite TR. destruct (valid_sadl_name n s =?s "") eqn:V.
  - exists tds. split; [reflexivity|]. intros x I. right. exact (N x I).
  - cbn [negb String.eqb]. rewrite C. cbn [rbind]. eexists. split; [reflexivity|]. cbn [map td_name fst]. intros x [<-|I]; [left|right; exact (N x I)].
    unfold valid_sadl_name in *. destruct (n =?s "Timestamp"), (o_type s =?s "string"), (n =?s "Decimal"); try reflexivity; discriminate.
Qed.
Lemma import_types_nodup all ss tds : NoDup (map fst ss) -> import_types all ss = Ok tds ->
  NoDup (map td_name tds) /\ forall n, In n (map td_name tds) -> In n (map fst ss).
Proof.
  revert tds. induction ss as [|[n s] ss IH]; intros tds N H; cbn [import_types] in H; [injection H as <-; split; [constructor|tauto]|].
  inversion N as [|? ? NI N']; subst. destruct (valid_sadl_name n s =?s "") eqn:V.
  - destruct (IH _ N' H) as [A B]. split; [exact A|]. intros x I. right. exact (B x I).
  - apply rbind_Ok in H. destruct H as (ts & _ & H). apply rbind_Ok in H. destruct H as (l & L & E). injection E as <-. destruct (IH _ N' L) as [A B].
    assert (VN : valid_sadl_name n s = n) by (unfold valid_sadl_name in *; destruct (n =?s "Timestamp"), (o_type s =?s "string"), (n =?s "Decimal"); try reflexivity; discriminate).
    cbn [map td_name fst]. rewrite VN. split; [constructor; [|exact A]|].
    + intros X. apply NI. exact (B _ X).
    + intros x [<-|I]; [left; reflexivity|right; exact (B x I)].
Qed.

Lemma actions_back fuel doc name i doc' : export_oas f64 m fuel = Ok doc -> (forall h, In h (sc_http sch) -> action_ok sch h) -> doc_alike doc doc' ->
  exists m', to_sadl name i doc' = Ok m'
  /\ exists hs, Permutation (sc_http sch) hs /\ Forall2 (fun h g => exists g0, action_back sch h g0 /\ http_alike g0 g) hs (sc_http (m_schema m')).
Proof.
  intros EX OK AL. destruct (new_model_inv _ _ Hm) as (ES & _ & _ & ND & NB & NH).
  destruct (export_ops f64 sch m Hm fuel doc EX) as (KP & KI & PK & OPS & TOT). destruct (export_schemas f64 sch m Hm fuel doc EX) as (SS & _ & KS).
  assert (OP : forall p mth op, doc_op doc p mth op -> keys_once (oo_responses op) /\ one_success op).
  { intros p mth op D. apply OPS in D. destruct D as (h & I & _ & _ & _ & O). exact (proj2 (action_there_and_back _ _ _ (OK h I) O)). }
  assert (DM : doc_maps doc).
  { split; [exact KS|]. intros t pi I. split; [exact (KI _ _ I)|]. intros mth op J. apply (OP t mth op). exists pi. auto. }
  assert (DS : doc_one_success doc) by (intros p mth op D; exact (proj2 (OP _ _ _ D))).
  assert (SM : forall x, In x (od_schemas doc) -> o_ref (snd x) = "" /\ convertible (snd x)).
  { intros [n s] I. apply SS in I. destruct I as (td & _ & _ & T). exact (typedef_convertible _ _ _ T). }
  destruct (import_types_total (od_schemas doc) _ SM) as (tds & TD & _). destruct (import_types_nodup _ _ _ KS TD) as [TN TI].
  assert (HS : exists gs, import_paths (od_paths doc) = Ok gs /\ exists hs, Permutation (sc_http sch) hs /\ Forall2 (action_back sch) hs gs).
  { assert (XP : forall x, In x (od_paths doc) -> has_prefix "x-" (fst x) = false).
    { intros x I. apply (in_map fst) in I. apply PK in I. destruct I as (h & Ih & P). destruct (OK h Ih) as (_ & (p & r & P' & E) & _).
      rewrite <- (cut_query_only _ _ P), (cut_query_only _ _ P'), E. reflexivity. }
    assert (MM : forall x, In x (od_paths doc) -> NoDup (map fst (snd x)) /\ forall y, In y (snd x) -> In (fst y) import_methods).
    { intros [t pi] I. split; [exact (KI _ _ I)|]. intros [mth op] J. destruct (proj1 (OPS t mth op)) as (h & _ & _ & _ & M & _); [exists pi; auto|].
      cbn [fst]. simpl in M |- *. tauto. }
    rewrite (import_paths_flat _ XP). assert (FP := flat_sel_perm _ MM).
    assert (HF : exists ops, Permutation (flat (od_paths doc)) ops
      /\ Forall2 (fun h x => fst x = oas_path m h /\ fst (snd x) = h_method h /\ oas_operation f64 m fuel h = Ok (snd (snd x))) (sc_http sch) ops).
    { unfold export_oas in EX. rewrite ES in EX. apply rbind_Ok in EX. destruct EX as (ss & _ & EX). apply rbind_Ok in EX. destruct EX as (ps & HP & E). injection E as <-.
      cbn [od_paths]. apply (http_flat fuel (sc_http sch) [] ps); [|exact HP]. intros h I. exact (proj1 (OK h I)). }
    destruct HF as (ops & P & F).
    assert (F2 : Forall2 (fun h x => exists g, read_flat x = Ok g /\ action_back sch h g) (sc_http sch) ops).
    { clear P. assert (Z : forall h, In h (sc_http sch) -> action_ok sch h) by exact OK. revert Z. generalize (sc_http sch) as hs, F. clear F.
      intros hs F. induction F as [|h [p [mth op]] hs ops (E1 & E2 & E3) F IH]; intros Z; constructor.
      - cbn [fst snd] in *. subst p mth. unfold read_flat, read_op. cbn [fst snd]. exact (proj1 (action_there_and_back _ _ _ (Z h (or_introl eq_refl)) E3)).
      - apply IH. intros x I. apply Z. right. exact I. }
    destruct (forall2_perm _ _ _ (flat_sel (od_paths doc)) F2) as (hs & PH & F3).
    { eapply Permutation_trans; [apply Permutation_sym; exact P|exact FP]. }
    assert (GG : forall l hs, Forall2 (fun h x => exists g, read_flat x = Ok g /\ action_back sch h g) hs l ->
      exists gs, each read_flat l = Ok gs /\ Forall2 (action_back sch) hs gs).
    { clear. intros l hs F. induction F as [|h x hs l (g & G & B) F (gs & E & FB)]; [exists []; split; [reflexivity|constructor]|].
      cbn [each]. rewrite G, E. eexists. split; [reflexivity|]. constructor; assumption. }
    destruct (GG _ _ F3) as (gs & E & FB). exists gs. split; [exact E|]. exists hs. auto. }
  destruct HS as (gs & IPS & hs & PH & FB).
  assert (IM : exists m0, to_sadl name i doc = Ok m0 /\ sc_http (m_schema m0) = gs).
  { unfold to_sadl, import_schema. rewrite TD, IPS. cbn [rbind].
    match goal with |- context [new_model ?s] => destruct (proj1 (new_model_iff s)) as (m0 & M0) end.
    - split; [exact TN|]. cbn [sc_types sc_http]. split.
      + intros td I. apply (in_map td_name), TI in I. apply in_map_iff in I. destruct I as ([n s] & E & I). cbn [fst] in E. rewrite <- E.
        apply SS in I. destruct I as (td' & I & <- & _). exact (NB _ I).
      + replace (map h_name gs) with (map h_name hs); [exact (Permutation_NoDup (Permutation_map h_name PH) NH)|].
        clear - FB. induction FB as [|h g hs gs B F IH]; [reflexivity|]. cbn [map]. rewrite IH. f_equal. symmetry. exact (proj1 B).
    - rewrite M0. exists m0. split; [reflexivity|]. rewrite (proj1 (new_model_inv _ _ M0)). reflexivity. }
  destruct IM as (m0 & T0 & H0). destruct (to_sadl_alike name i doc doc' m0 DM DS AL T0) as (m' & T' & (_ & _ & _ & _ & _ & _ & _ & _ & HA)).
  exists m'. split; [exact T'|]. rewrite H0 in HA. destruct HA as (gs' & PG & FG).
  destruct (forall2_perm _ _ _ _ FB PG) as (hs2 & P2 & F2). exists hs2. split; [eapply Permutation_trans; eassumption|].
  clear - F2 FG. revert FG. generalize (sc_http (m_schema m')). induction F2 as [|h g hs2 gs' B F IH]; intros l FG; inversion FG as [|? g' ? l' A FG']; subst; constructor.
  - exists g. auto.
  - apply IH. exact FG'.
Qed.
End R.
