(** What the schemas and operations of an OpenAPI document are read as. *)
From Verif Require Import GoStr Outcome Value Schema Scalars Misc MiscFacts Model SpecTime SpecModel ModelFacts ValidateFacts SpecPV SpecMisc SpecGen OpenApi
  OpenApiImport SpecOpenApi OpenApiFacts SpecImport SpecOpenData ImportFacts ImportRound ImportRead ImportData.

Lemma named_ref s : o_ref s <> "" -> named s (oas_type_ref s).
Proof.
  intros NE. unfold oas_type_ref. destruct (o_ref s =?s "") eqn:E; [apply seqb_eq in E; contradiction|]. cbn [negb]. destruct (has_prefix schema_prefix (o_ref s)) eqn:P.
  - apply nm_ref. assert (P' := P). apply has_prefix_spec in P'. destruct P' as (r & R). rewrite R, sdrop_append. reflexivity.
  - apply nm_bare. intros (r & R). assert (Q : has_prefix schema_prefix (o_ref s) = true) by (apply has_prefix_spec; exists r; exact R). congruence.
Qed.
Lemma signed_64 z : signed64 z (to_int64 z).
Proof.
  unfold signed64, to_int64. cbv zeta. assert (B := Z.mod_pos_bound z (2 ^ 64) ltac:(lia)). assert (D := Z.div_mod z (2 ^ 64) ltac:(lia)).
  destruct (Z.ltb_spec (z mod 2 ^ 64) (2 ^ 63)) as [L|L]; (split; [lia|]); [exists (- (z / 2 ^ 64))%Z|exists (- (z / 2 ^ 64) - 1)%Z]; lia.
Qed.
Lemma code_32 z : code_read z (to_int32 z).
Proof.
  unfold code_read, to_int32. cbv zeta. assert (B := Z.mod_pos_bound z (2 ^ 32) ltac:(lia)). assert (D := Z.div_mod z (2 ^ 32) ltac:(lia)).
  destruct (Z.ltb_spec (z mod 2 ^ 32) (2 ^ 31)) as [L|L]; (split; [lia|]); [exists (- (z / 2 ^ 32))%Z|exists (- (z / 2 ^ 32) - 1)%Z]; lia.
Qed.
Lemma integer_kinds f : integer_kind f (integer_name f).
Proof.
  unfold integer_kind, integer_name. destruct (f =?s "int8") eqn:A; [apply seqb_eq in A; auto|]. destruct (f =?s "int16") eqn:B; [apply seqb_eq in B; auto|].
  destruct (f =?s "int32") eqn:C; [apply seqb_eq in C; auto|]. right. right. right. split; [|reflexivity]. intros [<-|[<-|[<-|[]]]]; discriminate.
Qed.
Lemma string_means s : o_type s = "string" -> means s (convert_string s).
Proof.
  intros T. unfold convert_string. destruct (match o_enum s with Some l => forallb is_symbol l | None => false end) eqn:B.
  - destruct (o_enum s) as [l|] eqn:E; [|discriminate]. apply (mn_enum s l T E). apply forallb_symbols. exact B.
  - set (vs := match match o_enum s with Some l => l | None => [] end with [] => None | _ => _ end).
    assert (LV : loose_values (o_enum s) vs).
    { unfold vs. destruct (o_enum s) as [l|]; [|left; auto]. right. exists l. split; [reflexivity|]. split; [intros F; apply forallb_symbols in F; congruence|]. destruct l; [discriminate|reflexivity]. }
    destruct (o_format s =?s "uuid") eqn:U; [apply seqb_eq in U; apply mn_uuid; assumption|]. destruct (o_format s =?s "date-time") eqn:D; [apply seqb_eq in D; apply mn_time; assumption|].
    apply mn_text; auto.
    + intros [F|[F|[]]]; rewrite <- F in *; discriminate.
    + destruct (Z.ltb_spec 0 (o_minlen s)); [apply mr_some; [assumption|apply signed_64]|apply mr_none; assumption].
    + destruct (o_maxlen s); [apply xr_some; apply signed_64|apply xr_none].
Qed.
Lemma required_iff k req b : contains_string req k = b -> (b = true <-> In k req).
Proof. intros <-. apply str_mem_In. Qed.
Lemma convert_means s ts : convert_oas s = Ok ts -> means s ts.
Proof.
  revert ts. induction s as [s HI HP] using oas_ind'. intros ts C. rewrite convert_oas_eq in C. cbv zeta in C.
  destruct (o_type s =?s "boolean") eqn:E1; [apply seqb_eq in E1; injection C as <-; now apply mn_bool|].
  destruct (o_type s =?s "string") eqn:E2; [apply seqb_eq in E2; injection C as <-; now apply string_means|].
  destruct (o_type s =?s "array") eqn:E3.
  { apply seqb_eq in E3. destruct (o_items s) as [i|] eqn:IT; [|injection C as <-; now apply mn_bare_array].
    destruct (o_ref i =?s "") eqn:R; cbn [negb] in C.
    - apply seqb_eq in R. destruct (convert_oas i) as [its| e | |] eqn:CI; try discriminate; [|exfalso; exact (convert_no_err i e CI)]. injection C as <-.
      exact (mn_array_inline s i its E3 IT R (HI i eq_refl its CI)).
    - apply seqb_neq in R. injection C as <-. exact (mn_array_named s i _ E3 IT R (named_ref i R)). }
  destruct (o_type s =?s "number") eqn:E4; [apply seqb_eq in E4; injection C as <-; now apply mn_number|].
  destruct (o_type s =?s "integer") eqn:E5; [apply seqb_eq in E5; injection C as <-; exact (mn_integer s _ E5 (integer_kinds _))|].
  destruct ((o_type s =?s "") || (o_type s =?s "object")) eqn:E6; [|discriminate]. assert (T : o_type s = "" \/ o_type s = "object").
  { apply orb_true_iff in E6. destruct E6 as [E|E]; apply seqb_eq in E; auto. }
  destruct (o_props s) as [ps|] eqn:PS; [|injection C as <-; now apply mn_bare_object]. apply rbind_Ok in C. destruct C as (fs & C & Q). injection Q as <-.
  apply (mn_object s ps fs T PS). assert (HP' : forall n i, In (n, i) ps -> forall ts, convert_oas i = Ok ts -> means i ts) by (intros n i I; exact (HP ps n i eq_refl I)). clear - C HP'.
  apply each_Ok in C. induction C as [|[k p] f ps fs C F IH]; [constructor|]. specialize (IH (fun n i I => HP' n i (or_intror I))).
  unfold convert_prop in C. cbn [fst snd] in C. apply rbind_Ok in C. destruct C as (ft & C & Q). injection Q as <-. destruct (refers_b p) as [[B H]|[B H]]; rewrite B in C.
  - injection C as <-. apply pf_named; [apply type_ref_spec; split; [reflexivity|apply refers_spec; exact H]|now apply required_iff|exact IH].
  - apply pf_inline; [exact H|exact (HP' k p (or_introl eq_refl) ft C)|now apply required_iff|exact IH].
Qed.
Lemma output_means s ts : output_type s = Ok ts -> out_means s ts.
Proof.
  unfold output_type, out_means. destruct (o_ref s =?s "") eqn:E; cbn [negb]; intros C.
  - apply seqb_eq in E. right. split; [exact E|exact (convert_means s ts C)].
  - apply seqb_neq in E. left. split; [exact E|]. injection C as <-. eexists. split; [exact (named_ref s E)|reflexivity].
Qed.
Lemma values_read t items e : values_spec t items e (ts_fill t "" (match e with Some (v :: l) => Some (v :: l) | _ => None end) None None [] [] None None items).
Proof.
  eexists. split; [|split; [|reflexivity]].
  - intros v l ->. reflexivity.
  - intros H. destruct e as [[|v l]|]; try reflexivity. exfalso. exact (H v l eq_refl).
Qed.
Lemma param_type_means s ts : param_type s = Ok ts -> param_means s ts.
Proof.
  unfold param_type. destruct (refers_b s) as [[B H]|[B H]]; rewrite B; intros C.
  - injection C as <-. apply pm_named. apply type_ref_spec. split; [reflexivity|]. apply refers_spec. exact H.
  - unfold primitive_type in C.
    destruct (o_type s =?s "string") eqn:E1; [apply seqb_eq in E1; cbn in C; injection C as <-; apply pm_text; auto; apply values_read|].
    destruct (o_type s =?s "number") eqn:E2; [apply seqb_eq in E2; cbn in C; injection C as <-; apply pm_number; auto; apply values_read|].
    destruct (o_type s =?s "integer") eqn:E3; [apply seqb_eq in E3; cbn in C; injection C as <-; apply pm_integer; auto; apply values_read|].
    destruct (o_type s =?s "array") eqn:E4.
    { apply seqb_eq in E4. cbn in C. injection C as <-. destruct (o_items s) as [i|] eqn:IT.
      - destruct (o_type i =?s "string") eqn:S; [apply seqb_eq in S; apply (pm_texts s i); auto; apply values_read|]. apply seqb_neq in S.
        apply pm_others; auto; [intros j Q; rewrite IT in Q; injection Q as <-; exact S|apply values_read].
      - apply pm_others; auto; [intros j Q; congruence|apply values_read]. }
    destruct (o_type s =?s "object") eqn:E5; [discriminate|].
    destruct (o_type s =?s "boolean") eqn:E6; [|discriminate]. apply seqb_eq in E6. cbn in C. injection C as <-. apply pm_bool; auto. apply values_read.
Qed.
Lemma param_of path p i q : convert_param path p = Ok (i, q) -> input_of p i /\ q = (if op_in p =?s "query" then [piece_of p] else []).
Proof.
  unfold convert_param, piece_of. rewrite identifier_letters. cbv zeta. intros C.
  assert (NQ : (op_in p =?s "query") = false -> op_in p <> "query") by (intros E; apply seqb_neq; exact E).
  destruct (op_in p =?s "query") eqn:E1.
  { apply seqb_eq in E1. apply rbind_Ok in C. destruct C as (r & C & Q). apply rbind_Ok in C. destruct C as (ts & C & Q2). injection Q2 as <-. injection Q as <- <-. split; [|reflexivity].
    exists ts. split; [exact (param_type_means _ _ C)|]. intros h qq b [(_ & -> & -> & ->)|[(A & _)|[(A & _)|(A & _)]]]; [reflexivity|congruence|congruence|exfalso; apply A; rewrite E1; simpl; tauto]. }
  specialize (NQ eq_refl). destruct (op_in p =?s "path") eqn:E2.
  { apply seqb_eq in E2. destruct (contains _ path); [|discriminate]. apply rbind_Ok in C. destruct C as (r & C & Q). apply rbind_Ok in C. destruct C as (ts & C & Q2). injection Q2 as <-. injection Q as <- <-. split; [|reflexivity].
    exists ts. split; [exact (param_type_means _ _ C)|]. intros h qq b [(A & _)|[(_ & -> & -> & ->)|[(A & _)|(A & _)]]]; [congruence|reflexivity|congruence|exfalso; apply A; rewrite E2; simpl; tauto]. }
  destruct (op_in p =?s "header") eqn:E3.
  { apply seqb_eq in E3. apply rbind_Ok in C. destruct C as (r & C & Q). apply rbind_Ok in C. destruct C as (ts & C & Q2). injection Q2 as <-. injection Q as <- <-. split; [|reflexivity].
    exists ts. split; [exact (param_type_means _ _ C)|]. intros h qq b [(A & _)|[(A & _)|[(_ & -> & -> & ->)|(A & _)]]]; [congruence|congruence|reflexivity|exfalso; apply A; rewrite E3; simpl; tauto]. }
  destruct (op_in p =?s "cookie"); [discriminate|]. apply seqb_neq in E2, E3.
  apply rbind_Ok in C. destruct C as (r & C & Q). apply rbind_Ok in C. destruct C as (ts & C & Q2). injection Q2 as <-. injection Q as <- <-. split; [|reflexivity].
  exists ts. split; [exact (param_type_means _ _ C)|]. intros h qq b [(A & _)|[(A & _)|[(A & _)|(_ & -> & -> & ->)]]]; [congruence|congruence|congruence|reflexivity].
Qed.
Lemma params_of path ps : forall is qs, convert_params path ps = Ok (is, qs) -> Forall2 input_of ps is
  /\ exists ks, without (fun p => op_in p <> "query") ps ks /\ qs = map piece_of ks.
Proof.
  induction ps as [|p ps IH]; intros is qs C; cbn [convert_params] in C.
  - injection C as <- <-. split; [constructor|]. exists []. split; [constructor|reflexivity].
  - apply rbind_Ok in C. destruct C as ([i q] & P & C). apply rbind_Ok in C. destruct C as ([js rs] & R & Q). injection Q as <- <-.
    destruct (param_of _ _ _ _ P) as [IO ->]. destruct (IH _ _ R) as (F & ks & W & ->). split; [constructor; assumption|].
    destruct (op_in p =?s "query") eqn:E.
    + apply seqb_eq in E. exists (p :: ks). split; [apply wo_keep; [intros N; exact (N E)|exact W]|reflexivity].
    + apply seqb_neq in E. exists ks. split; [apply wo_drop; assumption|reflexivity].
Qed.
Lemma tags_second rez l : rez <> "" -> (blanks l /\ convert_tags rez "" l = (rez, "")) \/ exists b t c, l = b ++ t :: c /\ blanks b /\ t <> "" /\ convert_tags rez "" l = (rez, join "," (t :: c)).
Proof.
  intros NE. assert (Z : (rez =?s "") = false) by (apply seqb_neq; exact NE). induction l as [|t l IH]; [left; split; [intros t []|reflexivity]|]. destruct (string_dec t "") as [-> |NT].
  - cbn [convert_tags]. rewrite Z. cbn [String.eqb]. destruct IH as [[B E]|(b & t & c & -> & B & N & E)].
    + left. split; [intros t [<-|I]; [reflexivity|exact (B t I)]|exact E].
    + right. exists ("" :: b), t, c. split; [reflexivity|]. split; [intros u [<-|I]; [reflexivity|exact (B u I)]|]. split; [exact N|exact E].
  - right. exists [], t, l. split; [reflexivity|]. split; [intros u []|]. split; [exact NT|]. cbn [convert_tags]. rewrite Z. cbn [String.eqb]. apply convert_tags_more; assumption.
Qed.
Lemma tags_of_read l rez tmp : convert_tags "" "" l = (rez, tmp) -> tags_read l rez (if tmp =?s "" then [] else [("x_tags", tmp)]).
Proof.
  revert rez tmp. induction l as [|t l IH]; intros rez tmp C.
  - injection C as <- <-. apply tr_none. intros t [].
  - cbn [convert_tags] in C. cbn [String.eqb] in C. destruct (string_dec t "") as [-> |NE].
    + specialize (IH _ _ C). inversion IH; subst.
      * apply tr_none. intros u [<-|I]; [reflexivity|auto].
      * apply (tr_one ("" :: a)); auto. intros u [<-|I]; [reflexivity|auto].
      * apply (tr_more ("" :: a)); auto. intros u [<-|I]; [reflexivity|auto].
    + destruct (tags_second t l NE) as [[B E]|(b & u & c & -> & B & N & E)]; rewrite E in C; assert (E1 := f_equal fst C); assert (E2 := f_equal snd C); cbn [fst snd] in E1, E2; rewrite <- E1, <- E2.
      * apply (tr_one []); auto. intros u [].
      * assert (J : (join "," (u :: c) =?s "") = false). { apply seqb_neq. destruct u; [contradiction|]. destruct c; discriminate. }
        rewrite J. apply (tr_more [] t b u c); auto. intros v [].
Qed.
Lemma body_read mth op : In mth import_methods -> body_of mth op (convert_body mth (oo_body op) (oo_bodyreq op)).
Proof.
  intros M. unfold convert_body, body_of. destruct (str_mem mth ["POST"; "PUT"; "PATCH"]) eqn:E.
  - assert (I : In mth ["PUT"; "POST"]). { apply str_mem_In in E. destruct E as [<-|[<-|[<-|[]]]]; [simpl; tauto|simpl; tauto|]. exfalso. destruct M as [M|[M|[M|[M|[M|[]]]]]]; discriminate. }
    destruct (oo_body op) as [[d s]|]; [|right; split; [reflexivity|intros ? ? _ Q; discriminate]]. destruct (refers_b s) as [[B H]|[B H]]; rewrite B.
    + left. exists d, s, (oas_type_ref s). split; [exact I|]. split; [reflexivity|]. split; [apply type_ref_spec; split; [reflexivity|apply refers_spec; exact H]|reflexivity].
    + right. split; [reflexivity|]. intros d' s' _ Q. injection Q as <- <-. exact H.
  - right. split; [reflexivity|]. intros d s I _. exfalso. assert (X : str_mem mth ["POST"; "PUT"; "PATCH"] = true). { apply str_mem_In. destruct I as [<-|[<-|[]]]; simpl; tauto. } congruence.
Qed.
Lemma headers_of hs is : convert_headers hs = Ok is -> Forall2 header_of hs is.
Proof.
  rewrite convert_headers_each. intros C. apply each_Ok in C. induction C as [|h i hs is C F IH]; constructor; [|exact IH].
  unfold convert_header in C. apply rbind_Ok in C. destruct C as (ts & C & Q). injection Q as <-. exists (strip_x (fst h)), ts. split; [apply strip_x_bare|]. split; [exact (output_means _ _ C)|].
  rewrite identifier_letters. reflexivity.
Qed.
Lemma expected_read k r e : convert_expected k r = Ok e -> expected_of k r e.
Proof.
  unfold convert_expected. intros C. apply rbind_Ok in C. destruct C as (z & Z & C). apply rbind_Ok in C. destruct C as (hs & HS & C). apply rbind_Ok in C. destruct C as (bs & BS & Q). injection Q as <-.
  exists (to_int32 z), hs, bs. split; [|split; [exact (headers_of _ _ HS)|split; [|reflexivity]]].
  - destruct (k =?s "default") eqn:E; cbn [negb andb] in Z; [apply seqb_eq in E; injection Z as <-; left; auto|]. apply seqb_neq in E.
    destruct (contains "X" k) eqn:CX; cbn [negb] in Z; [apply has_x_spec in CX; injection Z as <-; left; auto|]. destruct (atoi k) as [w|] eqn:A; [|discriminate]. injection Z as <-. apply atoi_spec in A.
    right. split; [exact E|]. split; [intros H; apply has_x_spec in H; congruence|]. exists w. split; [exact A|apply code_32].
  - destruct (or_body r) as [s|]; cbn [payload_of]; [|now injection BS as <-]. apply rbind_Ok in BS. destruct BS as (ts & T & Q). injection Q as <-. exists ts. split; [exact (output_means _ _ T)|reflexivity].
Qed.
Lemma exception_read k r x : convert_exception k r = Ok x -> exception_of (k, r) x.
Proof.
  unfold convert_exception. intros C. apply rbind_Ok in C. destruct C as (st & S & C). destruct (atoi st) as [z|] eqn:A; [|discriminate]. apply rbind_Ok in C. destruct C as (t & T & Q). injection Q as <-.
  exists (to_int32 z), t. cbn [fst snd]. split; [|split; [|reflexivity]].
  - destruct (k =?s "default") eqn:E; [apply seqb_eq in E; injection S as <-; injection A as <-; left; auto|]. apply seqb_neq in E. destruct (contains "X" k); [discriminate|]. injection S as <-. apply atoi_spec in A.
    right. split; [exact E|]. exists z. split; [exact A|apply code_32].
  - destruct (or_body r) as [s|]; [|now injection T as <-]. destruct (o_ref s =?s "") eqn:E; cbn [negb] in T; [discriminate|]. apply seqb_neq in E. injection T as <-. exact (named_ref s E).
Qed.
Lemma without_key {A} k (rs : list (string * A)) : without (fun kr => fst kr = k) rs (filter (not_key k) rs).
Proof.
  induction rs as [|[n r] rs IH]; [constructor|]. cbn [filter]. unfold not_key at 1. cbn [fst]. destruct (n =?s k) eqn:E; cbn [negb].
  - apply seqb_eq in E. apply wo_drop; assumption.
  - apply seqb_neq in E. apply wo_keep; assumption.
Qed.
Lemma action_read path op mth h : keys_once (oo_responses op) -> In mth import_methods -> convert_path path op mth = Ok h -> action_of path mth op h.
Proof.
  intros KO M C. unfold convert_path in C. destruct (convert_tags "" "" (oo_tags op)) as [rez tmp] eqn:TG. apply rbind_Ok in C. destruct C as ([is qs] & P & C). set (k := expected_status (oo_responses op)) in *.
  destruct (get k (oo_responses op)) as [r|] eqn:G; [|discriminate]. apply rbind_Ok in C. destruct C as (e & E & C). apply rbind_Ok in C. destruct C as (xs & XS & Q). injection Q as <-.
  destruct (params_of _ _ _ _ P) as (FI & ks & W & ->). apply (get_In _ _ _ KO) in G. unfold action_of. cbn [h_name h_method h_comment h_resource h_annos h_path h_inputs h_expected h_exceptions].
  split; [reflexivity|]. split; [reflexivity|]. split; [reflexivity|]. split; [exact (tags_of_read _ _ _ TG)|].
  split; [exists ks; split; [exact W|]; destruct ks; reflexivity|].
  split; [exists is; eexists; split; [exact FI|split; [exact (body_read mth op M)|reflexivity]]|].
  exists k, r, e, (filter (not_key k) (oo_responses op)). split.
  - split; [apply in_map_iff; exists (k, r); auto|]. destruct (expected_status_cases (oo_responses op)) as [[_ S]|[D N]]; [left; exact S|right; auto].
  - split; [exact G|]. split; [reflexivity|]. split; [exact (expected_read _ _ _ E)|]. split; [apply without_key|]. rewrite convert_exceptions_each in XS. apply each_Ok in XS. clear - XS.
    induction XS as [|[k' r'] x rs xs C F IH]; constructor; [exact (exception_read _ _ _ C)|exact IH].
Qed.
Lemma sel_ops doc : keys_once (od_paths doc) -> doc_maps doc -> forall t mth op, In (t, (mth, op)) (flat_sel (filter plain_path (od_paths doc))) <-> op_read doc t mth op.
Proof.
  intros KP [KS KI]. set (ops := flat_sel (filter plain_path (od_paths doc))).
  assert (FN : NoDup (map fst (filter plain_path (od_paths doc)))).
  { clear - KP. unfold keys_once in KP. induction (od_paths doc) as [|x l IH]; [constructor|]. inversion KP as [|? ? NI N]; subst. cbn [filter]. destruct (plain_path x); [|exact (IH N)].
    cbn [map]. constructor; [|exact (IH N)]. intros X. apply NI. apply in_map_iff in X. destruct X as (y & E & Y). apply filter_In in Y. rewrite <- E. apply in_map. exact (proj1 Y). }
  assert (FK : forall x, In x (filter plain_path (od_paths doc)) -> NoDup (map fst (snd x))).
  { intros [t pi] I. apply filter_In in I. exact (proj1 (KI t pi (proj1 I))). }
  intros t mth op. unfold ops. rewrite (flat_sel_In _ t mth op FN FK). unfold op_read, doc_op.
  assert (X : (~ exists r, t = "x-" +++ r) <-> has_prefix "x-" t = false).
  { rewrite <- has_prefix_spec. destruct (has_prefix "x-" t); split; intros X; congruence. }
  rewrite X. split.
  - intros (pi & I & J & M). apply filter_In in I. destruct I as [I P]. unfold plain_path in P. apply negb_true_iff in P. cbn [fst] in P. split; [eauto|]. split; [exact M|exact P].
  - intros ((pi & I & J) & M & P). exists pi. split; [|auto]. apply filter_In. split; [exact I|]. unfold plain_path. cbn [fst]. rewrite P. reflexivity.
Qed.
Lemma actions_read name i doc m : keys_once (od_paths doc) -> doc_maps doc -> to_sadl name i doc = Ok m ->
  (forall p mth op, op_read doc p mth op -> exists h, In h (sc_http (m_schema m)) /\ action_of p mth op h)
  /\ (forall h, In h (sc_http (m_schema m)) -> exists p mth op, op_read doc p mth op /\ action_of p mth op h).
Proof.
  intros KP KM TO. assert (SO := sel_ops doc KP KM). unfold to_sadl in TO. apply rbind_Ok in TO. destruct TO as (sch & IS & TO). destruct (new_model sch) as [m0| | |] eqn:NM; try discriminate. injection TO as ->.
  rewrite (proj1 (new_model_inv _ _ NM)). unfold import_schema in IS. apply rbind_Ok in IS. destruct IS as (tds & _ & IS). apply rbind_Ok in IS. destruct IS as (hs & HS & Q). injection Q as <-. cbn [sc_http].
  rewrite import_paths_sel in HS. apply each_Ok in HS.
  assert (ACT : forall p mth op h, op_read doc p mth op -> read_flat (p, (mth, op)) = Ok h -> action_of p mth op h).
  { intros p mth op h R C. apply (action_read p op mth h); [|exact (proj1 (proj2 R))|exact C]. destruct R as ((pi & I & J) & _). destruct KM as [_ KI]. exact (proj2 (KI _ _ I) _ _ J). }
  clear NM m. set (ops := flat_sel _) in *. clearbody ops. split.
  - intros p mth op R. assert (I := proj2 (SO p mth op) R). clear SO. induction HS as [|x h ops hs C F IH]; [destruct I|]. destruct I as [-> |I]; [exists h; split; [left; reflexivity|exact (ACT _ _ _ _ R C)]|].
    destruct (IH I) as (h' & J & A). exists h'. split; [right; exact J|exact A].
  - intros h I. assert (ALL : forall t mth op, In (t, (mth, op)) ops -> op_read doc t mth op) by (intros; apply SO; assumption). clear SO.
    induction HS as [|[p [mth op]] h' ops hs C F IH]; [destruct I|]. destruct I as [-> |I]; [exists p, mth, op; assert (R := ALL p mth op (or_introl eq_refl)); split; [exact R|exact (ACT _ _ _ _ R C)]|].
    apply IH; [exact I|]. intros t mt o J. apply ALL. right. exact J.
Qed.

(** ** Named schemas *)
Lemma defs_read all ss tds : keys_once all -> import_types all ss = Ok tds ->
  (forall n s, In (n, s) ss -> def_kept n s -> exists td, In td tds /\ type_of all n s td)
  /\ (forall td, In td tds -> exists n s, In (n, s) ss /\ def_kept n s /\ type_of all n s td).
Proof.
  intros ONCE. revert tds. induction ss as [|[n s] ss IH]; intros tds H; cbn [import_types] in H.
  - injection H as <-. split; [intros n s []|intros td []].
  - destruct (kept_or n s) as [KD|V].
    + assert (KK := KD). apply kept_spec in KK. destruct KK as [V E]. rewrite V, E in H. apply rbind_Ok in H. destruct H as (ts & T & H). apply rbind_Ok in H. destruct H as (l & L & Q). injection Q as <-.
      assert (TO : type_of all n s (mkTD n (if negb (oas_type_ref s =?s "") then "" else o_desc s) [] ts)).
      { destruct (refers_b s) as [[B R]|[B R]]; rewrite B in *.
        - left. destruct (get (oas_type_ref s) all) as [d|] eqn:G; [|discriminate]. exists (oas_type_ref s), d, ts. split; [apply type_ref_spec; split; [reflexivity|apply refers_spec; exact R]|].
          split; [apply (get_In _ _ _ ONCE); exact G|]. split; [exact (convert_means _ _ T)|reflexivity].
        - right. exists ts. split; [exact R|]. split; [exact (convert_means _ _ T)|reflexivity]. }
      destruct (IH _ L) as [A B]. split.
      * intros n' s' [I|I] KD'; [injection I as <- <-; eexists; split; [left; reflexivity|exact TO]|]. destruct (A n' s' I KD') as (td & J & W). exists td. split; [right; exact J|exact W].
      * intros td [<-|I]; [exists n, s; split; [left; reflexivity|auto]|]. destruct (B td I) as (n' & s' & J & W). exists n', s'. split; [right; exact J|exact W].
    + rewrite V in H. destruct (IH _ H) as [A B]. split.
      * intros n' s' [I|I] KD'; [injection I as <- <-; apply kept_spec in KD'; destruct KD'; congruence|exact (A n' s' I KD')].
      * intros td I. destruct (B td I) as (n' & s' & J & W). exists n', s'. split; [right; exact J|exact W].
Qed.
Lemma types_read name i doc m : keys_once (od_schemas doc) -> to_sadl name i doc = Ok m ->
  (forall n s, In (n, s) (od_schemas doc) -> def_kept n s -> exists td, In td (sc_types (m_schema m)) /\ type_of (od_schemas doc) n s td)
  /\ (forall td, In td (sc_types (m_schema m)) -> exists n s, In (n, s) (od_schemas doc) /\ def_kept n s /\ type_of (od_schemas doc) n s td).
Proof.
  intros KS TO. unfold to_sadl in TO. apply rbind_Ok in TO. destruct TO as (sch & IS & TO). destruct (new_model sch) as [m0| | |] eqn:NM; try discriminate. injection TO as ->.
  rewrite (proj1 (new_model_inv _ _ NM)). unfold import_schema in IS. apply rbind_Ok in IS. destruct IS as (tds & TY & IS). apply rbind_Ok in IS. destruct IS as (hs & _ & Q). injection Q as <-. cbn [sc_types].
  exact (defs_read _ _ _ KS TY).
Qed.
