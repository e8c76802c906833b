(** C126: the examples taken over from an OpenAPI document. *)
From Verif Require Import GoStr Outcome Value Schema Scalars Misc Model OpenApi OpenApiImport ParserValidate OasTake SpecImport SpecPV SpecOasTake PVFacts
  ModelFacts OpenApiFacts ImportFacts ImportData OasTakeFacts Demo PropsExport PropsImport.

(** ** C126 *)
(** The examples of the imported model: those in the schemas of the components, with the labels on the way as target. *)
Theorem C126_examples_exact : forall all es, import_examples all all = Ok es ->
  forall e, In e es <-> exists n x t y l v, In (n, x) all /\ def_kept n (x_head x) /\ stands_for all n x t y /\ carries y l v
                        /\ e = mkEx (join "." (t :: l)) "" v "" [].
Proof. intros all es. exact (import_examples_spec all all es). Qed.
Print Assumptions C126_examples_exact.
Theorem C126_examples_total : forall all tds, import_types (bare_all all) (bare_all all) = Ok tds -> exists es, import_examples all all = Ok es.
Proof. intros all tds. exact (import_examples_total all all tds). Qed.
Print Assumptions C126_examples_total.
Definition text_x (s : string) : oasx := mkX (oas_simple "string" "" "") (Some (VStr s)) None None.
Definition object_x (ps : list (string * oasx)) : oasx := mkX (oas_simple "object" "" "") None None (Some ps).
Definition array_x (y : oasx) : oasx := mkX (oas_simple "array" "" "") None (Some y) None.
Definition shop : list (string * oasx) :=
  [("Label", text_x "red"); ("Item", object_x [("label", text_x "blue"); ("size", object_x [("unit", text_x "cm")])]); ("Labels", array_x (text_x "green"));
   ("Tag", mkX (oas_ref "Label") None None None)].
Definition shop_types : list typedef := match import_types (bare_all shop) (bare_all shop) with Ok l => l | _ => [] end.
Definition shop_examples : list exampledef := match import_examples shop shop with Ok l => l | _ => [] end.
Example C126_examples_case : import_examples shop shop = Ok shop_examples /\ import_types (bare_all shop) (bare_all shop) = Ok shop_types
  /\ map (fun e => (ex_target e, ex_example e)) shop_examples
     = [("Label", VStr "red"); ("Item.label", VStr "blue"); ("Item.size.unit", VStr "cm"); ("Labels.Items", VStr "green"); ("Label", VStr "red")].
Proof. split; [reflexivity|]. split; reflexivity. Qed.
(** A target is found in the imported model exactly if the example is that of a component or of a property of one.  For names without dots. *)
Theorem C126_found_exact : forall all tds n x l v, import_types (bare_all all) (bare_all all) = Ok tds -> NoDup (map fst all) -> no_dots all ->
  In (n, x) all -> def_kept n (x_head x) -> o_ref (x_head x) = "" -> carries x l v -> Forall (no_char ".") l ->
  (addressed tds (join "." (n :: l)) <-> l = [] \/ (o_type (x_head x) = "" \/ o_type (x_head x) = "object") /\ exists f, l = [f]).
Proof. exact addressed_iff. Qed.
Print Assumptions C126_found_exact.
Lemma shop_hyps : NoDup (map fst shop) /\ no_dots shop.
Proof.
  split; [repeat constructor; cbn; intuition discriminate|].
  intros n x I. cbn in I. destruct I as [I|[I|[I|[I|[]]]]]; injection I as <- <-; (split; [apply no_char_smem; reflexivity|]); cbn; intros f F; try (destruct F as [<-|[<-|[]]]; apply no_char_smem; reflexivity); destruct F.
Qed.
Lemma shop_item : carries (object_x [("label", text_x "blue"); ("size", object_x [("unit", text_x "cm")])]) ["label"] (VStr "blue")
  /\ carries (object_x [("label", text_x "blue"); ("size", object_x [("unit", text_x "cm")])]) ["size"; "unit"] (VStr "cm").
Proof.
  split.
  - apply ca_prop with (text_x "blue"); [right; reflexivity|left; reflexivity|left; reflexivity|constructor].
  - apply ca_prop with (object_x [("unit", text_x "cm")]); [right; reflexivity|right; left; reflexivity|left; reflexivity|].
    apply ca_prop with (text_x "cm"); [right; reflexivity|left; reflexivity|left; reflexivity|constructor].
Qed.
Example C126_found_case : addressed shop_types "Item.label" /\ ~ addressed shop_types "Item.size.unit" /\ ~ addressed shop_types "Labels.Items".
Proof.
  destruct shop_hyps as [U D]. assert (T : import_types (bare_all shop) (bare_all shop) = Ok shop_types) by reflexivity.
  destruct shop_item as [C1 C2].
  assert (K : forall h, def_kept "Item" h) by (intros h; repeat split; discriminate).
  assert (K2 : forall h, def_kept "Labels" h) by (intros h; repeat split; discriminate).
  split; [|split].
  - apply (C126_found_exact shop shop_types "Item" _ ["label"] _ T U D (or_intror (or_introl eq_refl)) (K _) eq_refl C1); [repeat constructor; apply no_char_smem; reflexivity|].
    right. split; [right; reflexivity|]. exists "label". reflexivity.
  - intros A. apply (C126_found_exact shop shop_types "Item" _ ["size"; "unit"] _ T U D (or_intror (or_introl eq_refl)) (K _) eq_refl C2) in A; [|repeat constructor; apply no_char_smem; reflexivity].
    destruct A as [A|[_ [f A]]]; discriminate.
  - intros A. apply (C126_found_exact shop shop_types "Labels" (array_x (text_x "green")) ["Items"] (VStr "green") T U D) in A.
    + destruct A as [A|[[A|A] _]]; discriminate.
    + right. right. left. reflexivity.
    + apply K2.
    + reflexivity.
    + apply ca_item; [reflexivity|reflexivity|constructor].
    + repeat constructor; apply no_char_smem; reflexivity.
Qed.
(** So there are examples that no type or field has; the parser refuses them. *)
Definition shop_schema : schema := mkSchema "" "shop" "" "" "" shop_types shop_examples [] [] "" [].
Theorem C126_found_refuted : exists all es m e, import_examples all all = Ok es /\ new_model (m_schema m) = Ok m
  /\ import_types (bare_all all) (bare_all all) = Ok (sc_types (m_schema m)) /\ In e es /\ ~ addressed (sc_types (m_schema m)) (ex_target e)
  /\ forall X fuel, validate_example X m fuel e = Err (PVTarget (ex_target e)).
Proof.
  exists shop, shop_examples, (model_of shop_schema), (mkEx "Item.size.unit" "" (VStr "cm") "" []).
  split; [reflexivity|]. split; [vm_compute; reflexivity|]. split; [reflexivity|]. split; [right; right; left; reflexivity|].
  split; [exact (proj1 (proj2 C126_found_case))|]. intros X fuel. reflexivity.
Qed.
Print Assumptions C126_found_refuted.
(** The example of a component is taken once more for every component that only refers to it. *)
Theorem C126_once_refuted : exists all a e b, NoDup (map fst all) /\ import_examples all all = Ok (a ++ e :: b) /\ In e b.
Proof.
  exists shop, [], (mkEx "Label" "" (VStr "red") "" []), (tl shop_examples). split; [exact (proj1 shop_hyps)|]. split; [reflexivity|]. cbn. tauto.
Qed.
Print Assumptions C126_once_refuted.
(** The examples in the response that an action expects. *)
Theorem C126_responses_exact : forall op hs body e, In e (response_examples op hs body) <->
  exists l v, responds hs body l v /\ e = mkEx (join "." (op :: "Expected" :: l)) "" v "" [].
Proof. exact responses_spec. Qed.
Print Assumptions C126_responses_exact.
Example C126_responses_case :
  map (fun e => (ex_target e, ex_example e)) (response_examples "getItem" [("X-Tag", text_x "a"); ("ETag", mkX (oas_ref "Label") (Some (VStr "b")) None None)] (Some (array_x (text_x "c"))))
  = [("getItem.Expected.Tag", VStr "a"); ("getItem.Expected.payload.Items", VStr "c")].
Proof. vm_compute. reflexivity. Qed.
(** None of them is found.  For names without dots. *)
Theorem C126_responses_not_found : forall all tds op hs body l v, import_types (bare_all all) (bare_all all) = Ok tds -> no_dots all -> no_char "." op ->
  responds hs body l v -> Forall (no_char ".") l -> ~ addressed tds (join "." (op :: "Expected" :: l)).
Proof.
  intros all tds op hs body l v H D N R F. apply (responds_not_found all tds op l H D N F). destruct R; discriminate.
Qed.
Print Assumptions C126_responses_not_found.
Example C126_responses_not_found_case : ~ addressed shop_types "getItem.Expected.payload.Items".
Proof.
  apply (C126_responses_not_found shop shop_types "getItem" [] (Some (array_x (text_x "c"))) ["payload"; "Items"] (VStr "c")).
  - reflexivity.
  - exact (proj2 shop_hyps).
  - apply no_char_smem. reflexivity.
  - apply re_body with (array_x (text_x "c")); [reflexivity|reflexivity|]. apply ca_item; [reflexivity|reflexivity|constructor].
  - repeat constructor; apply no_char_smem; reflexivity.
Qed.
