(** C90 - C93: Swagger 2 documents. *)
From Verif Require Import GoStr Outcome Value Data Schema Scalars Model SpecTime SpecModel ModelFacts ValidateFacts SpecPV Misc MiscFacts SpecMisc SpecGen
  OpenApi OpenApiImport SpecOpenApi SpecImport SpecOpenData Swagger SpecSwagger SwaggerFacts SwaggerData.
From Coq Require Import Lia.

(** ** C90 *)
(** Looking whether a file is a Swagger file: exactly when the answer is yes, when it is no, and when it crashes; a text
    that cannot be decoded gives no. *)
Theorem C90_detect_exact : forall l, json (VMap l) ->
  (is_valid_swagger (Some l) = Ok true <-> text_at (VMap l) "swagger" "2.0" /\ sw_convertible (VMap l))
  /\ (is_valid_swagger (Some l) = Ok false <-> ~ text_at (VMap l) "swagger" "2.0")
  /\ (is_valid_swagger (Some l) = Panic <-> text_at (VMap l) "swagger" "2.0" /\ ~ sw_convertible (VMap l)).
Proof. exact valid_swagger. Qed.
Print Assumptions C90_detect_exact.
Definition texts (l : list string) : value := VArr (map VStr l).
Definition nat_value (z : Z) : value := VFloat64 (DFin z 0).
Definition ref_value (n : string) : value := VMap [("$ref", VStr ("#/definitions/" +++ n))].
Definition type_value (t : string) : value := VMap [("type", VStr t)].
Definition swagger_doc (consumes : list string) (ds ps : list (string * value)) : list (string * value) :=
  [("swagger", VStr "2.0"); ("info", VMap [("title", VStr "pets"); ("version", VStr "1"); ("license", VMap [("name", VStr "MIT")])]); ("host", VStr "pets.example"); ("basePath", VStr "/v1");
   ("consumes", texts consumes); ("produces", texts ["application/json"]); ("definitions", VMap ds); ("paths", VMap ps)].
Definition pet_defs : list (string * value) :=
  [("Pet", VMap [("type", VStr "object"); ("required", texts ["name"]);
      ("properties", VMap [("name", VMap [("type", VStr "string"); ("maxLength", nat_value 10)]); ("kind", ref_value "Kind"); ("age", VMap [("type", VStr "integer"); ("format", VStr "int32")]); ("friends", ref_value "Pets")])]);
   ("Kind", VMap [("type", VStr "string"); ("enum", texts ["cat"; "dog"])]); ("Pets", VMap [("type", VStr "array"); ("items", ref_value "Pet")]); ("Animal", ref_value "Pet")].
Definition answer_value (s : option value) : value := VMap (("description", VStr "here") :: match s with Some x => [("schema", x)] | None => [] end).
Definition pet_paths : list (string * value) :=
  [("/pets/{id}", VMap
     [("parameters", VArr [VMap [("name", VStr "trace"); ("in", VStr "header"); ("type", VStr "string")]]);
      ("get", VMap [("operationId", VStr "getPet"); ("summary", VStr "read one");
         ("parameters", VArr [VMap [("name", VStr "id"); ("in", VStr "path"); ("required", VBool true); ("type", VStr "string")];
            VMap [("name", VStr "tags"); ("in", VStr "query"); ("description", VStr "which"); ("type", VStr "array"); ("items", type_value "string")]]);
         ("responses", VMap [("200", answer_value (Some (ref_value "Pet"))); ("404", answer_value None)])]);
      ("put", VMap [("operationId", VStr "putPet");
         ("parameters", VArr [VMap [("name", VStr "id"); ("in", VStr "path"); ("type", VStr "string")]; VMap [("name", VStr "pet"); ("in", VStr "body"); ("required", VBool true); ("schema", ref_value "Pet")]]);
         ("responses", VMap [("204", answer_value None)])]);
      ("patch", VMap [("operationId", VStr "changePet"); ("responses", VMap [("204", answer_value None)])])])].
Definition pets : list (string * value) := swagger_doc ["application/json"] pet_defs pet_paths.
Fixpoint jsonb (v : value) : bool :=
  match v with
  | VNil | VBool _ | VStr _ => true
  | VFloat64 (DFin _ _) => true
  | VArr l => forallb jsonb l
  | VMap l => (fix go (l : list (string * value)) : bool := match l with [] => true | (k, x) :: r => negb (str_mem k (map fst r)) && jsonb x && go r end) l
  | _ => false
  end.
Lemma jsonb_sound v : jsonb v = true -> json v.
Proof.
  induction v as [| | | | | | | | | | |[| ]|l IH|l IH] using value_ind'; simpl; try discriminate; try (intros _; now constructor).
  - intros H. constructor. rewrite forallb_forall in H. rewrite Forall_forall in *. auto.
  - intros H. enough (keys_once l /\ Forall (fun kx => json (snd kx)) l) as [A B] by now constructor.
    induction l as [|[k x] l IHl]; [split; constructor|]. apply andb_prop in H as [H G]. apply andb_prop in H as [N H]. inversion IH as [|? ? P Q]; subst.
    destruct (IHl Q G) as [A B]. split; [|constructor; auto]. unfold keys_once. simpl. constructor; [|exact A]. intros I0. apply str_mem_In in I0. rewrite I0 in N. discriminate.
Qed.
Example C90_detect_exact_case : json (VMap pets) /\ is_valid_swagger (Some pets) = Ok true.
Proof. split; [now apply jsonb_sound|]. vm_compute. reflexivity. Qed.
(** Common Swagger documents make it crash: a schema made of others, an untyped one, an array of anything, a file, a
    parameter given by reference. *)
Theorem C90_no_crash_refuted :
  Forall (fun d => is_valid_swagger (Some (swagger_doc [] [("A", d)] [])) = Panic)
    [VMap [("allOf", VArr [ref_value "B"])]; VMap [("description", VStr "anything")]; type_value "array"; type_value "file"; VMap [("type", VStr "object"); ("properties", VMap [("a", VMap [])])]]
  /\ is_valid_swagger (Some (swagger_doc [] [] [("/a", VMap [("get", VMap [("parameters", VArr [VMap [("$ref", VStr "#/parameters/limit")]])])])])) = Panic
  /\ is_valid_swagger (Some (swagger_doc [] [] [("/a", VMap [("get", VMap [("responses", VMap [("200", answer_value (Some (type_value "file")))])])])])) = Panic.
Proof. split; [repeat constructor|]. split; reflexivity. Qed.
Print Assumptions C90_no_crash_refuted.

(** ** C91 *)
(** Exactly the Swagger documents that become a model: those whose OpenAPI 3 form, as said by [doc_of], can be read. *)
Theorem C91_readable_exact : forall name l, json (VMap l) -> sw_one_success (VMap l) ->
  ((exists m, import_swagger name (Some l) = Ok m) <-> text_at (VMap l) "swagger" "2.0" /\ exists doc, doc_of (VMap l) doc /\ doc_readable doc).
Proof. exact swagger_readable. Qed.
Print Assumptions C91_readable_exact.
Lemma keys_at ks l k x : json (VMap l) -> at_key (VMap l) k x -> map fst l = ks -> In k ks.
Proof. intros _ (l' & E & I0) <-. injection E as <-. apply in_map_iff. now exists (k, x). Qed.
Example C91_readable_exact_case : json (VMap pets) /\ sw_one_success (VMap pets) /\ exists m, import_swagger "n" (Some pets) = Ok m.
Proof.
  assert (J : json (VMap pets)) by now apply jsonb_sound. split; [exact J|]. split; [|eexists; vm_compute; reflexivity].
  intros path key op rs k k' (ps & item & A & I0 & IK & AO & N) AR K1 K2 S1 S2.
  assert (ps = pet_paths) as -> by (pose proof (get_at _ _ _ J A) as Q; vm_compute in Q; injection Q as <-; reflexivity).
  destruct I0 as [E|[]]. injection E as <- <-. destruct AO as (l & E & I0). injection E as <-.
  simpl in I0. repeat (destruct I0 as [I0|I0]; [injection I0 as <- <-|]); try (now destruct I0).
  - simpl in IK. intuition discriminate.
  - destruct AR as (l & E & I0). injection E as <-. simpl in I0. repeat (destruct I0 as [I0|I0]; [injection I0; try discriminate; intros; subst|]); try (now destruct I0).
    destruct K1 as [<-|[<-|[]]], K2 as [<-|[<-|[]]]; try reflexivity; exfalso;
      [destruct S2 as (r & [E|E])|destruct S1 as (r & [E|E])]; discriminate.
  - destruct AR as (l & E & I0). injection E as <-. simpl in I0. repeat (destruct I0 as [I0|I0]; [injection I0; try discriminate; intros; subst|]); try (now destruct I0).
    destruct K1 as [<-|[]], K2 as [<-|[]]. reflexivity.
  - destruct AR as (l & E & I0). injection E as <-. simpl in I0. repeat (destruct I0 as [I0|I0]; [injection I0; try discriminate; intros; subst|]); try (now destruct I0).
    destruct K1 as [<-|[]], K2 as [<-|[]]. reflexivity.
Qed.

(** ** C92 *)
(** A type read from a definition accepts exactly the data that the definition describes, for all data and all
    definitions in [sw_plain_defs].  The bounds of numbers are looked for under "min" and "max": the premise asks
    that they are also what the keys [lo] and [hi] say.  Missing, as in C89: properties not mentioned are refused, an
    integer need not be whole, a time is a plain string; and the definitions outside [sw_plain_defs]. *)
Theorem C92_data_partial : forall name l m lo hi ds K, json (VMap l) -> import_swagger name (Some l) = Ok m -> at_key (VMap l) "definitions" (VMap ds) -> sw_plain_defs lo hi ds K ->
  forall X ctx n d v, K n -> In (n, d) ds -> vwf v ->
  ((exists k, validate X m k ctx n v = Ok tt) <-> sw_fits X (fun _ => True) (fun v s => v = VPStr s) true lo hi ds d v).
Proof. exact swagger_data. Qed.
Print Assumptions C92_data_partial.
Lemma absent l k : str_mem k (map fst l) = false -> ~ present (VMap l) k.
Proof. intros N (x & (l' & E & I0) & _). injection E as <-. assert (str_mem k (map fst l) = true); [|congruence]. apply str_mem_In, in_map_iff. now exists (k, x). Qed.
Lemma no_text l k : str_mem k (map fst l) = false -> text_at (VMap l) k "".
Proof. intros N. right. split; [reflexivity|]. intros t A. apply (absent l k N). exists (VStr t). split; [exact A|discriminate]. Qed.
Lemma at_some l k x : In (k, x) l -> at_key (VMap l) k x.
Proof. intros I0. now exists l. Qed.
Lemma points n : sw_pointer (ref_value n) n.
Proof. split; [now apply absent|]. apply at_some. now left. Qed.
Definition pet_names (n : string) : Prop := In n ["Pet"; "Kind"; "Pets"; "Animal"].
Example C92_data_partial_case : sw_plain_defs "minimum" "maximum" pet_defs pet_names /\ at_key (VMap pets) "definitions" (VMap pet_defs) /\ exists m, import_swagger "n" (Some pets) = Ok m.
Proof.
  split; [|split; [apply at_some; simpl; tauto|eexists; vm_compute; reflexivity]].
  assert (PP : exists d, In ("Pet", d) pet_defs /\ sw_plain "minimum" "maximum" pet_names d).
  { eexists. split; [left; reflexivity|]. apply sp_object.
    - split; [now apply absent|apply at_some; now left].
    - now apply absent.
    - right. eexists. apply at_some. right; right; left; reflexivity.
    - right. exists ["name"]. apply at_some. simpl. tauto.
    - intros a k (l & E & I0) I1. injection E as <-. simpl in I0. repeat (destruct I0 as [I0|I0]; [injection I0; try discriminate; intros; subst|]); try (now destruct I0).
      destruct I1 as [I1|[]]. injection I1 as <-. eexists. split; [apply at_some; right; right; left; reflexivity|]. simpl. tauto.
    - intros ps k p (l & E & I0) I1. injection E as <-. simpl in I0. repeat (destruct I0 as [I0|I0]; [injection I0; try discriminate; intros; subst|]); try (now destruct I0).
      simpl in I1. destruct I1 as [I1|[I1|[I1|[I1|[]]]]]; injection I1 as <- <-.
      + right. apply (sp_text _ _ _ _ ""); [split; [now apply absent|apply at_some; now left]|now apply absent|now apply no_text|simpl; intuition discriminate|].
        split; [left; now apply absent|right]. exists 10%Z. split; [apply at_some; simpl; tauto|unfold fits_int64; lia].
      + left. exists "Kind". split; [apply points|unfold pet_names; simpl; tauto].
      + right. apply (sp_number _ _ _ _ "integer"); [simpl; tauto|split; [now apply absent|apply at_some; now left]|].
        split; [|split; [|split]].
        * intros d. split; intros (l0 & E0 & I9); injection E0 as <-; simpl in I9; intuition discriminate.
        * intros d. split; intros (l0 & E0 & I9); injection E0 as <-; simpl in I9; intuition discriminate.
        * intros P. exfalso. revert P. now apply absent.
        * intros P. exfalso. revert P. now apply absent.
      + left. exists "Pets". split; [apply points|unfold pet_names; simpl; tauto]. }
  intros n [<-|[<-|[<-|[<-|[]]]]]; (split; [reflexivity|]; split; [discriminate|]; split; [discriminate|]).
  - destruct PP as (d & I0 & P). exists d. split; [exact I0|]. split; [discriminate|]. now left.
  - eexists. split; [right; left; reflexivity|]. split; [discriminate|]. left.
    apply (sp_symbols _ _ _ _ "" ["cat"; "dog"]); try (now apply absent); [split; [now apply absent|apply at_some; now left]|split; [discriminate|apply at_some; simpl; tauto]| |now apply no_text|simpl; intuition discriminate].
    repeat constructor; now apply is_symbol_iff.
  - eexists. split; [right; right; left; reflexivity|]. split; [discriminate|]. left.
    eapply sp_array; [split; [now apply absent|apply at_some; now left]|apply at_some; simpl; right; left; reflexivity|]. left. exists "Pet". split; [apply points|unfold pet_names; simpl; tauto].
  - eexists. split; [right; right; right; left; reflexivity|]. split; [discriminate|]. right. destruct PP as (d & I0 & P). exists "Pet", d. split; [apply points|]. split; [unfold pet_names; simpl; tauto|auto].
Qed.
(** The bounds of Swagger, "minimum" and "maximum", are ignored; so are the entries of a map, which are then refused. *)
Definition odd_defs : list (string * value) :=
  [("Small", VMap [("type", VStr "integer"); ("format", VStr "int32"); ("minimum", nat_value 0); ("maximum", nat_value 9)]);
   ("Table", VMap [("type", VStr "object"); ("additionalProperties", type_value "boolean")])].
Theorem C92_data_refuted : forall X ctx, exists l m, import_swagger "n" (Some l) = Ok m /\ at_key (VMap l) "definitions" (VMap odd_defs)
  /\ let ok := sw_fits X whole_number text_of false "minimum" "maximum" odd_defs in
     (exists v d, In ("Small", d) odd_defs /\ ~ ok d v /\ validate X m 5 ctx "Small" v = Ok tt)
  /\ (exists v d, In ("Table", d) odd_defs /\ ok d v /\ exists e, validate X m 5 ctx "Table" v = Err e).
Proof.
  intros X ctx. exists (swagger_doc [] odd_defs []). eexists. split; [vm_compute; reflexivity|]. split; [apply at_some; simpl; tauto|]. cbv zeta. split.
  - exists (VDec (DFin 10 0)). eexists. split; [left; reflexivity|]. split; [|vm_compute; reflexivity]. intros F.
    remember (VMap [("type", VStr "integer"); ("format", VStr "int32"); ("minimum", nat_value 0); ("maximum", nat_value 9)]) as s eqn:Es. remember (VDec (DFin 10 0)) as v eqn:Ev.
    destruct F as [s n d v A _ _|s b T|s b T|s v t f T _ _ TX|s t T|s v t T _ TX|s t T|s v w t T _ TX|s d T B|s d T _ [_ B]|s l T|s l T]; try discriminate;
      try (destruct TX as [TX|TX]; congruence); subst s.
    + destruct A as (l & E & I0). injection E as <-. simpl in I0. intuition discriminate.
    + destruct T as [_ (l & E & I0)]. injection E as <-. simpl in I0. intuition discriminate.
    + injection Ev as ->. assert (B' : dec_le (DFin 10 0) (DFin 9 0)) by (apply B, at_some; simpl; tauto). apply dec_le_Z in B'. lia.
  - exists (VMap [("a", VBool true)]). eexists. split; [right; left; reflexivity|]. split; [|vm_compute; eexists; reflexivity]. apply sf_object.
    + split; [now apply absent|apply at_some; now left].
    + intros a k (l & E & I0). injection E as <-. simpl in I0. intuition discriminate.
    + intros ps k p x (l & E & I0). injection E as <-. simpl in I0. intuition discriminate.
    + intros k x [E|[]] _. injection E as <- <-. left. eexists. split; [apply at_some; simpl; right; left; reflexivity|].
      apply sf_bool. split; [now apply absent|apply at_some; now left].
Qed.
Print Assumptions C92_data_refuted.

(** ** C93 *)
(** One type for each definition and no other, one action for each operation under get, put, post, delete and head and
    no other, and the head: [sw_type], [sw_action] and [sw_head] say which. *)
Theorem C93_types_exact : forall name l m ds, json (VMap l) -> import_swagger name (Some l) = Ok m -> map_at (VMap l) "definitions" ds ->
  (forall n d s, In (n, d) ds -> v3 d s -> def_kept n s -> exists td, In td (sc_types (m_schema m)) /\ sw_type ds n d td)
  /\ (forall td, In td (sc_types (m_schema m)) -> exists n d s, In (n, d) ds /\ v3 d s /\ def_kept n s /\ sw_type ds n d td).
Proof. exact swagger_types. Qed.
Print Assumptions C93_types_exact.
Theorem C93_actions_exact : forall name l m, json (VMap l) -> import_swagger name (Some l) = Ok m ->
  (forall p key mth x, sw_operation (VMap l) p key x -> In (key, mth) sw_read -> (~ exists r, p = "x-" +++ r) -> exists h, In h (sc_http (m_schema m)) /\ sw_action (VMap l) p mth x h)
  /\ (forall h, In h (sc_http (m_schema m)) -> exists p key mth x, sw_operation (VMap l) p key x /\ In (key, mth) sw_read /\ (~ exists r, p = "x-" +++ r) /\ sw_action (VMap l) p mth x h).
Proof. exact swagger_actions. Qed.
Print Assumptions C93_actions_exact.
Theorem C93_head_exact : forall name l m, json (VMap l) -> import_swagger name (Some l) = Ok m -> sw_head name (VMap l) (m_schema m).
Proof. exact swagger_head. Qed.
Print Assumptions C93_head_exact.
Example C93_exact_case : exists m, json (VMap pets) /\ import_swagger "n" (Some pets) = Ok m /\ sc_name (m_schema m) = "pets"
  /\ map (fun td => (td_name td, ts_type (td_spec td))) (sc_types (m_schema m)) = [("Pet", "Struct"); ("Kind", "Enum"); ("Pets", "Array"); ("Animal", "Struct")]
  /\ map (fun h => (h_name h, h_path h)) (sc_http (m_schema m)) = [("getPet", "/pets/{id}?tags={tags}"); ("putPet", "/pets/{id}")]
  /\ sc_annos (m_schema m) = [("x_openapi_version", "3.0.0"); ("x_server", "https://pets.example/v1"); ("x_license_name", "MIT")].
Proof. eexists. split; [now apply jsonb_sound|]. split; [vm_compute; reflexivity|]. repeat split. Qed.
(** What is lost: an operation under patch, a parameter of the path, the description of a parameter and what an array
    in it is made of; and, where JSON is not among the media types or no media types are given, the body. *)
Theorem C93_kept_refuted : exists l m, import_swagger "n" (Some l) = Ok m /\ sw_operation (VMap l) "/pets/{id}" "patch" (VMap [("operationId", VStr "changePet"); ("responses", VMap [("204", answer_value None)])])
  /\ (~ exists h, In h (sc_http (m_schema m)) /\ h_name h = "changePet")
  /\ (exists item ps p, In ("/pets/{id}", item) pet_paths /\ at_key item "parameters" (VArr ps) /\ In p ps /\ text_at p "name" "trace"
      /\ forall h i, In h (sc_http (m_schema m)) -> In i (h_inputs h) -> fd_name (ps_field i) <> "trace")
  /\ (exists h i, In h (sc_http (m_schema m)) /\ h_name h = "getPet" /\ In i (h_inputs h) /\ ps_query i = "tags" /\ fd_comment (ps_field i) = "" /\ ts_items (fd_spec (ps_field i)) = "Any")
  /\ (exists h, In h (sc_http (m_schema m)) /\ h_name h = "putPet" /\ Forall (fun i => ps_path i = true) (h_inputs h)).
Proof.
  exists (swagger_doc [] pet_defs pet_paths). eexists. split; [vm_compute; reflexivity|]. split.
  { exists pet_paths. eexists. split; [apply at_some; simpl; tauto|]. split; [left; reflexivity|]. split; [simpl; tauto|]. split; [apply at_some; simpl; tauto|discriminate]. }
  split; [intros (h & I0 & E); simpl in I0; intuition (subst; discriminate)|]. split; [|split].
  - eexists _, _, _. split; [left; reflexivity|]. split; [apply at_some; left; reflexivity|]. split; [left; reflexivity|]. split; [left; apply at_some; now left|].
    intros h i I0 I1. simpl in I0. repeat (destruct I0 as [<-|I0]; [simpl in I1; intuition (subst; discriminate)|]). destruct I0.
  - eexists _, _. split; [left; reflexivity|]. split; [reflexivity|]. split; [right; left; reflexivity|]. repeat split.
  - eexists. split; [right; left; reflexivity|]. split; [reflexivity|]. repeat constructor.
Qed.
Print Assumptions C93_kept_refuted.
