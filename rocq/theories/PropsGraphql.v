(** C74-C77: GraphQL documents read as models, and models written as GraphQL and read back. *)
From Verif Require Import GoStr Generator Outcome Value Schema Scalars Model SpecModel ModelFacts ValidateFacts SpecPV PVFacts SpecMisc MiscFacts SpecGen SpecOpenApi SpecImport ReadFacts Graphql GraphqlFacts
  GraphqlImport SpecGraphql GraphqlRead GraphqlRound GraphqlData Demo PropsExport.

Definition gql_read (l : list (string * string)) (path : string) : option string := option_map snd (find (fun x => fst x =?s path) l).
Definition only (src : string) (doc : list gdefn) (s : string) : option (list gdefn) := if s =?s src then Some doc else None.
Definition nn (t : gtype) : gtype := GNonNull t.
Definition gql_demo : list gdefn :=
  [ GSchemaDef ["Query"];
    GEnum "Color" (Some ("the" +++ nl +++ "colours")) [("RED", None); ("GREEN", Some "like grass")];
    GObject "Point" (Some "a point") [mkGField "x" None (nn (GNamed "Int")); mkGField "id" (Some "who") (GNamed "ID"); mkGField "near" None (nn (GList (nn (GNamed "Point"))))];
    GObject "Query" None [mkGField "odd" None (GList (GList (GNamed "Int")))];
    GUnion "Thing" None ["Color"; "Point"];
    GInterface "Named"; GInput "PointInput"; GScalar "Timestamp" ].

(** ** C74 *)
(** The documents that give a model, exactly, and those on which reading crashes, exactly; for all parsers. *)
Lemma gql_files read parse name ns paths :
  (exists path src doc, paths = [path] /\ read path = Some src /\ parse src = Some doc) \/ gql_import read parse name ns paths = Err tt.
Proof.
  unfold gql_import. destruct paths as [|p [|q r]]; auto. destruct (read p) as [src|] eqn:R; auto. destruct (parse src) as [doc|] eqn:P; auto. left. exists p, src, doc. auto.
Qed.
Theorem C74_readable_exact : forall read parse name ns paths,
  (exists m, gql_import read parse name ns paths = Ok m)
  <-> exists path src doc, paths = [path] /\ read path = Some src /\ parse src = Some doc /\ gql_readable doc.
Proof.
  intros read parse name ns paths. split.
  - intros (m & E). destruct (gql_files read parse name ns paths) as [(path & src & doc & -> & R & P)|X]; [|congruence].
    exists path, src, doc. split; [reflexivity|]. split; [exact R|]. split; [exact P|]. apply (import_iff read parse name ns path src doc R P). exists m. exact E.
  - intros (path & src & doc & -> & R & P & RD). exact (proj2 (import_iff read parse name ns path src doc R P) RD).
Qed.
Print Assumptions C74_readable_exact.
Theorem C74_crash_exact : forall read parse name ns paths,
  gql_import read parse name ns paths = Panic
  <-> exists path src doc, paths = [path] /\ read path = Some src /\ parse src = Some doc /\ gql_crashes doc.
Proof.
  intros read parse name ns paths. split.
  - intros E. destruct (gql_files read parse name ns paths) as [(path & src & doc & -> & R & P)|X]; [|congruence].
    exists path, src, doc. split; [reflexivity|]. split; [exact R|]. split; [exact P|]. apply (crash_iff read parse name ns path src doc R P). exact E.
  - intros (path & src & doc & -> & R & P & RD). exact (proj2 (crash_iff read parse name ns path src doc R P) RD).
Qed.
Print Assumptions C74_crash_exact.
Example C74_readable_exact_case : exists m, gql_import (gql_read [("a.graphql", "text")]) (only "text" gql_demo) "" "" ["a.graphql"] = Ok m
  /\ map td_name (sc_types (m_schema m)) = ["ID"; "Color"; "Point"; "Thing"].
Proof. eexists. split; vm_compute; reflexivity. Qed.
(** Lists of lists crash unless they are required with required items. *)
Theorem C74_lists : forall read parse name ns path src,
  read path = Some src ->
  (forall t, parse src = Some [GObject "T" None [mkGField "f" None (GList (GList t))]] -> gql_import read parse name ns [path] = Panic)
  /\ (forall t, parse src = Some [GObject "T" None [mkGField "f" None (GList (nn (GList t)))]] -> gql_import read parse name ns [path] = Panic)
  /\ (forall t, parse src = Some [GObject "T" None [mkGField "f" None (nn (GList (nn (GList t))))]] -> exists m, gql_import read parse name ns [path] = Ok m).
Proof. intros read parse name ns path src R. split; [|split]; intros t P; unfold gql_import; rewrite R, P; [reflexivity|reflexivity|eexists; reflexivity]. Qed.
Print Assumptions C74_lists.

(** ** C75 *)
(** The model: the type ID, then one type for each definition that gives one, in order, and nothing else. *)
Theorem C75_meaning : forall read parse name ns path src doc m, read path = Some src -> parse src = Some doc ->
  gql_import read parse name ns [path] = Ok m ->
  exists kept l, gql_kept [] doc kept /\ Forall2 gql_becomes kept l
  /\ sc_types (m_schema m) = mkTD "ID" "The GraphQL 'ID' type" [] (ts_of "String") :: l
  /\ (name <> "" -> sc_name (m_schema m) = name) /\ (name = "" -> sc_name (m_schema m) = "generatedFromGraphQL") /\ sc_namespace (m_schema m) = ns
  /\ sc_http (m_schema m) = [] /\ sc_operations (m_schema m) = [] /\ sc_examples (m_schema m) = [].
Proof.
  intros read parse name ns path src doc m R P E. destruct (import_becomes read parse name ns path src doc R P m E) as (kept & l & K & F & S).
  exists kept, l. split; [exact K|]. split; [exact F|]. rewrite S. cbn [whole sc_types sc_name sc_namespace sc_http sc_operations sc_examples]. split; [reflexivity|].
  split; [intros N; apply seqb_neq in N; rewrite N; reflexivity|]. split; [intros ->; reflexivity|]. auto.
Qed.
Print Assumptions C75_meaning.
Example C75_meaning_case : exists m, gql_import (gql_read [("a.graphql", "text")]) (only "text" gql_demo) "shapes" "org" ["a.graphql"] = Ok m
  /\ exists l, gql_kept [] gql_demo l /\ length l = 3 /\ exists e p, nth_error (sc_types (m_schema m)) 1 = Some e /\ td_comment e = "the colours" /\ nth_error (sc_types (m_schema m)) 2 = Some p
  /\ map (fun f : fielddef => (fd_name f, fd_comment f, fd_required f, ts_type (fd_spec f), ts_items (fd_spec f))) (ts_fields (td_spec p))
     = [("x", "", true, "Int32", ""); ("id", "who", false, "ID", ""); ("near", "", true, "Array", "Point")].
Proof.
  eexists. split; [vm_compute; reflexivity|]. eexists. split; [|split; [|eexists _, _; split; [reflexivity|]; split; [reflexivity|]; split; [reflexivity|reflexivity]]].
  - unfold gql_demo. apply gk_skip; [intros (n & [])|]. apply gk_take; [exists "Color"; reflexivity|].
    apply gk_take; [exists "Point"; split; [reflexivity|intros (ops & I & J); simpl in I; destruct I as [I|[I|[]]]; [injection I as <-; simpl in J; intuition discriminate|discriminate I]]|].
    apply gk_skip; [intros (n & -> & N); apply N; exists ["Query"]; split; [left; reflexivity|left; reflexivity]|]. apply gk_take; [exists "Thing"; reflexivity|].
    apply gk_skip; [intros (n & [])|]. apply gk_skip; [intros (n & [])|]. apply gk_skip; [intros (n & [])|]. apply gk_nil.
  - reflexivity.
Qed.

(** ** C76 *)
Definition gql_shapes : schema := schema_of
  [ tdef "Color" (ts_enum ["RED"; "GREEN"]);
    tdef "Coord" (ts_num "Int16" None None);
    tdef "Points" (ts_array "Point" None None);
    tdef "Point" (ts_struct [fld "x" true (ts_of "Coord"); fld "y" true (ts_of "Int64"); fld "color" false (ts_of "Color"); fld "near" false (ts_of "Points"); fld "tags" true (ts_array "String" None None); fld "at" false (ts_of "Timestamp")]);
    tdef "Thing" (mkTS "Union" "" None None None [] [] None None "" "" [mkVariant "point" "" [] (ts_of "Point"); mkVariant "color" "" [] (ts_of "Color")] "" "" "") ] [].
Definition gql_conf (n : string) : string := if n =?s "Timestamp" then "Timestamp" else "".
Definition gql_out : list gdef * list string := match gql_export gql_conf (model_of gql_shapes) with Ok x => x | _ => ([], []) end.
(** Enums, structs and unions come back in order, as [gql_back] says: names, symbols, variants, fields with whether
    they are required and their types with the scalars that GraphQL has.  Missing: aliases, limits, comments,
    annotations, defaults and the rest of the model, which are lost. *)
Theorem C76_types_partial : forall conf sch m read parse name ns path ds scalars, new_model sch = Ok m -> gql_scalars_ok conf -> ~ In "ID" (map td_name (sc_types sch)) ->
  gql_export conf m = Ok (ds, scalars) -> read path = Some (gql_text ds scalars) -> parse (gql_text ds scalars) = Some (gql_doc ds scalars) ->
  exists m' i l l', gql_import read parse name ns [path] = Ok m' /\ gql_defined (sc_types sch) l /\ sc_types (m_schema m') = i :: l' /\ td_name i = "ID"
  /\ Forall2 (gql_back conf sch) l l'.
Proof.
  intros conf sch m read parse name ns path ds scalars Hm SO NI EX R P. destruct (round conf sch m Hm read parse name ns path ds scalars SO NI EX R P) as (m' & l & E & D & l' & S & F).
  exists m', id_type, l, l'. split; [exact E|]. split; [exact D|]. rewrite S. split; [reflexivity|]. split; [reflexivity|exact F].
Qed.
Print Assumptions C76_types_partial.
Example C76_types_partial_case : new_model gql_shapes = Ok (model_of gql_shapes) /\ gql_scalars_ok gql_conf /\ ~ In "ID" (map td_name (sc_types gql_shapes))
  /\ gql_export gql_conf (model_of gql_shapes) = Ok gql_out /\ snd gql_out = ["Timestamp"] /\ map gql_name (fst gql_out) = ["Color"; "Point"; "Thing"].
Proof.
  split; [reflexivity|]. split; [intros n I; simpl in I; destruct I as [<-|[<-|[<-|[<-|[]]]]]; vm_compute; tauto|]. split; [simpl; intuition discriminate|]. repeat split.
Qed.
(** Types are not the same, with any parser that reads comments as comments: aliases and comments are lost, 64-bit
    integers become floats, a field of a type named Int becomes an Int32. *)
Definition one_file (ds : list gdef) (scalars : list string) (read : string -> option string) (parse : string -> option (list gdefn)) (path : string) : Prop :=
  read path = Some (gql_text ds scalars) /\ parse (gql_text ds scalars) = Some (gql_doc ds scalars).
Theorem C76_types_refuted :
  (exists sch m ds, new_model sch = Ok m /\ gql_export (fun _ => "") m = Ok (ds, []) /\ map td_name (sc_types sch) = ["Coord"; "Int"; "P"]
     /\ map (fun td => map (fun f : fielddef => (fd_comment f, ts_type (fd_spec f))) (ts_fields (td_spec td))) (sc_types sch) = [[]; []; [("how far", "Coord"); ("", "Int"); ("", "Int64")]]
     /\ forall read parse path, one_file ds [] read parse path -> exists m', gql_import read parse "" "" [path] = Ok m' /\ map td_name (sc_types (m_schema m')) = ["ID"; "Int"; "P"]
     /\ map (fun td => map (fun f : fielddef => (fd_comment f, ts_type (fd_spec f))) (ts_fields (td_spec td))) (sc_types (m_schema m')) = [[]; []; [("", "Int32"); ("", "Int32"); ("", "Float64")]])
  /\ (exists sch m ds, new_model sch = Ok m /\ gql_export (fun _ => "") m = Ok (ds, []) /\ In "ID" (map td_name (sc_types sch))
     /\ forall read parse path, one_file ds [] read parse path -> gql_import read parse "" "" [path] = Err tt)
  /\ (exists conf sch m ds, new_model sch = Ok m /\ gql_export conf m = Ok (ds, ["Long"])
     /\ forall read parse path, one_file ds ["Long"] read parse path -> gql_import read parse "" "" [path] = Err tt).
Proof.
  split; [|split].
  - exists (schema_of [tdef "Coord" (ts_num "Int16" None None); tdef "Int" (ts_enum ["A"]); tdef "P" (ts_struct [mkField "x" "how far" [] true VNil (ts_of "Coord"); fld "i" true (ts_of "Int"); fld "n" true (ts_of "Int64")])] []).
    eexists _, _. split; [reflexivity|]. split; [vm_compute; reflexivity|]. split; [reflexivity|]. split; [reflexivity|]. intros read parse path [R P]. unfold gql_import. rewrite R, P. eexists. split; [reflexivity|]. split; reflexivity.
  - exists (schema_of [tdef "ID" (ts_enum ["A"])] []). eexists _, _. split; [reflexivity|]. split; [vm_compute; reflexivity|]. split; [left; reflexivity|].
    intros read parse path [R P]. unfold gql_import. rewrite R, P. reflexivity.
  - exists (fun n => if n =?s "Int64" then "Long" else ""), (schema_of [tdef "P" (ts_struct [fld "n" true (ts_of "Int64")])] []). eexists _, _. split; [reflexivity|]. split; [vm_compute; reflexivity|].
    intros read parse path [R P]. unfold gql_import. rewrite R, P. reflexivity.
Qed.
Print Assumptions C76_types_refuted.

(** ** C77 *)
(** Validation gives the same verdict before and after, for all data, for the types built as [gql_data] says: enums,
    unions, structs over base types without limits, lists, aliases of those, nested and recursive.  Missing: limits,
    and scalars without counterpart, where it is false (next theorem). *)
Theorem C77_data_partial : forall conf sch m read parse name ns path ds scalars K, new_model sch = Ok m -> gql_scalars_ok conf -> ~ In "ID" (map td_name (sc_types sch)) ->
  gql_export conf m = Ok (ds, scalars) -> read path = Some (gql_text ds scalars) -> parse (gql_text ds scalars) = Some (gql_doc ds scalars) -> gql_data_types conf sch K ->
  exists m', gql_import read parse name ns [path] = Ok m' /\ forall X ctx ctx' n v, K n -> vwf v ->
  ((exists k, validate X m k ctx n v = Ok tt) <-> (exists k, validate X m' k ctx' n v = Ok tt)).
Proof.
  intros conf sch m read parse name ns path ds scalars K Hm SO NI EX R P HK. destruct (round conf sch m Hm read parse name ns path ds scalars SO NI EX R P) as (m' & l & E & D & l' & S & F).
  exists m'. split; [exact E|]. intros X ctx ctx' n v. assert (M' : new_model (m_schema m') = Ok m').
  { rewrite (import_doc read parse name ns path _ _ R P) in E. apply rbind_Ok in E. destruct E as (s' & _ & E). destruct (new_model s') as [m0| | |] eqn:NM; try discriminate. injection E as <-. rewrite (proj1 (new_model_inv _ _ NM)). exact NM. }
  assert (TY : sc_types (m_schema m') = id_type :: l') by (rewrite S; reflexivity).
  exact (gql_verdict conf sch (m_schema m') m m' K l l' Hm M' D TY F HK X ctx ctx' n v).
Qed.
Print Assumptions C77_data_partial.
Example C77_data_partial_case : new_model gql_shapes = Ok (model_of gql_shapes) /\ gql_export gql_conf (model_of gql_shapes) = Ok gql_out
  /\ gql_data_types gql_conf gql_shapes (fun n => In n ["Color"; "Point"; "Thing"]).
Proof.
  split; [reflexivity|]. split; [reflexivity|]. intros n I. split; [intros J; simpl in I, J; intuition congruence|]. destruct I as [<-|[<-|[<-|[]]]].
  - eexists. split; [left; reflexivity|]. split; [reflexivity|]. apply gt_plain. simpl. tauto.
  - eexists. split; [do 3 right; left; reflexivity|]. split; [reflexivity|]. apply gt_struct; [reflexivity|]. intros f J. simpl in J. destruct J as [<-|[<-|[<-|[<-|[<-|[<-|[]]]]]]].
    + eapply gf_alias; [right; left; reflexivity|reflexivity|]. apply gp_number; try reflexivity; simpl; tauto.
    + apply gf_plain. apply gp_number; try reflexivity; simpl; tauto.
    + apply gf_named. simpl. tauto.
    + eapply gf_alias; [right; right; left; reflexivity|reflexivity|]. apply gp_list; [reflexivity|split; reflexivity|right; simpl; tauto].
    + apply gf_plain. apply gp_list; [reflexivity|split; reflexivity|left; simpl; tauto].
    + apply gf_plain. apply gp_custom; [simpl; tauto|reflexivity].
  - eexists. split; [do 4 right; left; reflexivity|]. split; [reflexivity|]. apply gt_plain. simpl. tauto.
Qed.
(** A limit of an alias and the form of a UUID are lost, so more data is accepted afterwards. *)
Theorem C77_data_refuted : forall X ctx read parse path, exists sch m ds, new_model sch = Ok m /\ gql_export (fun _ => "") m = Ok (ds, []) /\ (one_file ds [] read parse path ->
  exists m', gql_import read parse "" "" [path] = Ok m'
  /\ (exists v, vwf v /\ (exists e, validate X m 5 ctx "S" v = Err e) /\ validate X m' 5 ctx "S" v = Ok tt)
  /\ (exists v, vwf v /\ (exists e, validate X m 5 ctx "T" v = Err e) /\ validate X m' 5 ctx "T" v = Ok tt)).
Proof.
  intros X ctx read parse path. set (sch := schema_of [tdef "Word" (ts_str "" (Some ["a"; "b"])); tdef "S" (ts_struct [fld "w" true (ts_of "Word")]); tdef "T" (ts_struct [fld "id" true (ts_of "UUID")])] []).
  exists sch, (model_of sch). eexists. split; [reflexivity|]. split; [vm_compute; reflexivity|]. intros [R P]. unfold gql_import. rewrite R, P. eexists. split; [reflexivity|].
  assert (W : forall k x, vwf x -> vwf (VMap [(k, x)])). { intros k x H. apply wf_map; [constructor; [intros []|constructor]|]. constructor; [exact H|constructor]. }
  split.
  - exists (VMap [("w", VStr "c")]). split; [apply W; apply wf_leaf; discriminate|split; [eexists; reflexivity|reflexivity]].
  - exists (VMap [("id", VStr "a")]). split; [apply W; apply wf_leaf; discriminate|split; [eexists; reflexivity|reflexivity]].
Qed.
Print Assumptions C77_data_refuted.
