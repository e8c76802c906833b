(** The names that the generated Java classes mention, and where Java finds them. *)
From Verif Require Import GoStr Value Schema SpecTime SpecMisc SpecModel SpecPV SpecTrace SpecGo SpecGen SpecJava.

(** ** Names in a class *)
Fixpoint type_names (t : jtype) : list string :=
  match t with JT n => [n] | JTList t => "List" :: type_names t | JTMap k t => "Map" :: type_names k ++ type_names t end.
Definition anno_names (a : janno) : list string :=
  match a with
  | NotNull => ["NotNull"] | Matches _ => ["Pattern"] | Sized _ _ => ["Size"]
  | Least _ => ["Min"] | Most _ => ["Max"] | DecLeast _ => ["DecimalMin"] | DecMost _ => ["DecimalMax"]
  | Writes => ["JsonSerialize"; "Util"] | Reads => ["JsonDeserialize"; "Util"]
  end.
(** a class mentions the types of its members twice: as variables, and in constructors, getters and builders *)
Definition member_names (m : jmember) : list string :=
  (if jm_optional m then ["JsonInclude"] else []) ++ flat_map anno_names (jm_annos m) ++ type_names (jm_type m).
Definition argument_names (m : jmember) : list string := type_names (jm_arg m) ++ if jm_stamp m then anno_names Reads else [].
Definition pretty_names (pretty : bool) : list string := if pretty then ["Override"; "String"; "Util"] else [].
Section Mentioned.
Context (lombok immutable pretty : bool).
Fixpoint mentioned (top : bool) (c : jclass) : list string :=
  match c with
  | JStruct n thrown ms inner =>
      let lombok := lombok && negb thrown in
      (if immutable then ["JsonDeserialize"] else [])
      ++ (if thrown then ["JsonIgnoreProperties"; "RuntimeException"] else [])
      ++ (if top && lombok then ["Data"; "Builder"; "NoArgsConstructor"] ++ match ms with [] => [] | _ => ["AllArgsConstructor"] end else [])
      ++ flat_map member_names ms
      ++ (if lombok then []
          else (if immutable then "JsonPOJOBuilder" :: flat_map argument_names ms else [])
               ++ pretty_names pretty ++ flat_map (mentioned false) inner)
  | JUnion n ms inner =>
      (if lombok then ["Data"; "AllArgsConstructor"; "Builder"; "NoArgsConstructor"] else [])
      ++ ["JsonIgnore"; "JsonCreator"]
      ++ flat_map (fun m => ["JsonInclude"; "JsonProperty"] ++ flat_map anno_names (jm_annos m) ++ type_names (jm_type m) ++ type_names (jm_arg m)) ms
      ++ pretty_names pretty ++ flat_map (mentioned false) inner
  | JEnum n es => ["String"; "JsonValue"; "Override"; "JsonCreator"; "IllegalArgumentException"]
  | JUnit n v u e => type_names v ++ type_names u ++ ["NotNull"; "JsonCreator"; "String"; "JsonValue"; "Override"]
  end.
End Mentioned.

(** ** Where Java finds a name *)
Definition java_lang : list string :=
  ["boolean"; "byte"; "short"; "int"; "long"; "float"; "double"; "Boolean"; "Byte"; "Short"; "Integer"; "Long"; "Float"; "Double"; "String"; "Object";
   "Override"; "RuntimeException"; "IllegalArgumentException"].
(** in java.lang, imported, or with a file in the same package; a name of another package has a dot before it *)
Definition found (imports files : list string) (n : string) : Prop :=
  In n java_lang \/ In n files \/ exists p, In (p +++ "." +++ n) imports.
(** what is never imported, and what a class of unit values does not ask for *)
Definition never_imported : list string := ["Min"; "Max"; "DecimalMin"; "DecimalMax"].
Definition excused (c : jclass) (n : string) : Prop :=
  In n never_imported \/ n = "JsonCreator" /\ exists m v u e, c = JUnit m v u e.

Section Closed.
Context (comment : string -> Z -> string -> string) (quote : string -> string) (dec_text : decimal -> string) (int_text : Z -> string).
Context (lombok immutable pretty : bool) (header package model_package name : string) (stamp_text helper_text error_text : string).
(** the names of the files in the package of the model *)
Definition siblings (fs : list jout) : list string :=
  map (fun f => snd (fst f)) (filter (fun f => if string_dec (fst (fst f)) model_package then true else false) fs).
Inductive closed_file (allowed : jclass -> string -> Prop) (names : list string) : jout -> Prop :=
| cf_class n imports c k : (forall x, In x (mentioned lombok immutable pretty true k) -> found imports names x \/ allowed k x) ->
    closed_file allowed names (model_package, n, class_file comment quote dec_text int_text lombok immutable pretty header model_package imports c k)
| cf_interface acs : (forall ac, In ac acs -> In (snd ac +++ "Request") names /\ In (snd ac +++ "Response") names) ->
    closed_file allowed names (model_package, name, interface_file header model_package name acs)
| cf_fixed pkg n s : In (n, s) [("Timestamp", stamp_text); ("Util", helper_text); ("ServiceException", error_text)] ->
    closed_file allowed names (pkg, n, java_text header pkg s).
End Closed.

(** ** Models whose classes mention only what is there *)
Section Usable.
Context (sch : schema).
Definition usable (n : string) : Prop := known sch n /\ ~ In n ["Bytes"; "Struct"; "Enum"; "Union"; "UnitValue"].
(** the parts of an array or a map *)
Definition parts_usable (ts : typespec) (n : string) : Prop :=
  (n = "Array" -> usable (ts_items ts) /\ ~ container (ts_items ts))
  /\ (n = "Map" -> (usable (ts_keys ts) /\ ~ container (ts_keys ts)) /\ usable (ts_items ts) /\ ~ container (ts_items ts)).
Definition types_usable : Prop := forall td, In td (sc_types sch) ->
  large_first (td_name td) (td_name td)
  /\ (In (ts_type (td_spec td)) (numbers ++ ["String"; "Array"; "Map"; "UUID"; "Decimal"; "Timestamp"]) \/ with_class (td_spec td))
  /\ parts_usable (td_spec td) (ts_type (td_spec td))
  /\ (ts_type (td_spec td) = "UnitValue" ->
        (usable (ts_value (td_spec td)) /\ ~ container (ts_value (td_spec td))) /\ usable (ts_unit (td_spec td)) /\ ~ container (ts_unit (td_spec td))).
Definition members_usable : Prop := forall n ts, member_of sch n ts -> usable (ts_type ts) /\ parts_usable ts (ts_type ts).
End Usable.
