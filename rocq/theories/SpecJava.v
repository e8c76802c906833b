(** The Java classes of a model: Java types, declarations and their text, and when there are none. *)
From Verif Require Import GoStr Value Schema SpecTime SpecMisc SpecModel SpecPV SpecTrace SpecGo SpecGen.

(** ** Java types and annotations *)
Inductive jtype := JT (n : string) | JTList (t : jtype) | JTMap (k t : jtype).
Fixpoint jtype_text (t : jtype) : string :=
  match t with
  | JT n => n
  | JTList t => "List<" +++ jtype_text t +++ ">"
  | JTMap k t => "Map<" +++ jtype_text k +++ "," +++ jtype_text t +++ ">"
  end.
Inductive janno :=
| NotNull | Matches (pattern : string) | Sized (lo hi : option Z)
| Least (d : decimal) | Most (d : decimal)                      (* @Min, @Max *)
| DecLeast (d : decimal) | DecMost (d : decimal)                (* @DecimalMin, @DecimalMax *)
| Writes | Reads.                                               (* how an Instant is written and read as JSON *)

(** ** Classes *)
(** [jm_type] is the type of the variable, [jm_arg] the type in the constructor, the getter and the builder;
    [jm_stamp]: the builder reads an Instant *)
Record jmember := mkJM {
  jm_name : string; jm_comment : string; jm_optional : bool; jm_annos : list janno; jm_type : jtype; jm_arg : jtype; jm_stamp : bool }.
Inductive jclass :=
| JStruct (n : string) (thrown : bool) (ms : list jmember) (inner : list jclass)
| JUnion (n : string) (ms : list jmember) (inner : list jclass)
| JEnum (n : string) (elements : list (string * string * string))      (* symbol, text, comment *)
| JUnit (n : string) (value unit : jtype) (by_enum : option bool).     (* is the unit an enum, a string, or neither *)

Section Text.
Context (comment : string -> Z -> string -> string)      (* a comment with its indent and its last column *)
        (quote : string -> string) (dec_text : decimal -> string) (int_text : Z -> string).
Context (lombok immutable pretty : bool).

Definition anno_text (a : janno) : string :=
  match a with
  | NotNull => "@NotNull"
  | Matches p => "@Pattern(regexp=" +++ quote p +++ ")"
  | Sized (Some a) (Some b) => "@Size(min=" +++ int_text a +++ ", max=" +++ int_text b +++ ")"
  | Sized (Some a) None => "@Size(min=" +++ int_text a +++ ")"
  | Sized None (Some b) => "@Size(max=" +++ int_text b +++ ")"
  | Sized None None => "@Size()"
  | Least d => "@Min(" +++ dec_text d +++ ")"
  | Most d => "@Max(" +++ dec_text d +++ ")"
  | DecLeast d => "@DecimalMin(" +++ quote (dec_text d) +++ ")"
  | DecMost d => "@DecimalMax(" +++ quote (dec_text d) +++ ")"
  | Writes => "@JsonSerialize(using = Util.InstantSerializer.class)"
  | Reads => "@JsonDeserialize(using = Util.InstantDeserializer.class)"
  end.
Definition note (indent c : string) : string := if string_dec c "" then "" else comment indent 100 c.
Definition annos_text (i : string) (m : jmember) : string := each (fun a => line (i +++ anno_text a)) (jm_annos m).
Definition big_first (n : string) : string := match n with EmptyString => "" | String c r => upper1 c +++ r end.

(** [i] is the indent of a member *)
Definition struct_member (i : string) (m : jmember) : string :=
  note i (jm_comment m)
  +++ (if jm_optional m then line (i +++ "@JsonInclude(JsonInclude.Include.NON_EMPTY) /* Optional field */") else "")
  +++ annos_text i m
  +++ line (i +++ (if immutable then "private final " else "public ") +++ jtype_text (jm_type m) +++ " " +++ jm_name m +++ ";") +++ line "".
Definition assign (i : string) (m : jmember) (v : string) : string := line (i +++ "this." +++ jm_name m +++ " = " +++ v +++ ";").
Definition args_text (ms : list jmember) : string := join ", " (map (fun m => jtype_text (jm_arg m) +++ " " +++ jm_name m) ms).
Definition constructor (i n : string) (ms : list jmember) : string :=
  line (i +++ "public " +++ n +++ "(" +++ args_text ms +++ ") {")
  +++ each (fun m => assign (i +++ "    ") m (jm_name m)) ms +++ line (i +++ "}") +++ line "".
Definition getter (i : string) (m : jmember) : string :=
  line (i +++ "public " +++ jtype_text (jm_arg m) +++ " get" +++ big_first (jm_name m) +++ "() {")
  +++ line (i +++ "    return " +++ jm_name m +++ ";") +++ line (i +++ "}") +++ line "".
Definition builder_setter (i b : string) (m : jmember) : string :=
  (if jm_stamp m then line (i +++ anno_text Reads) else "")
  +++ line (i +++ "public " +++ b +++ " " +++ jm_name m +++ "(" +++ jtype_text (jm_arg m) +++ " " +++ jm_name m +++ ") {")
  +++ assign (i +++ "    ") m (jm_name m) +++ line (i +++ "    return this;") +++ line (i +++ "}") +++ line "".
Definition builder (i n : string) (ms : list jmember) : string :=
  let b := n +++ "Builder" in
  line (i +++ "public " +++ b +++ " toBuilder() {") +++ line (i +++ "    return new " +++ b +++ "(this);") +++ line (i +++ "}") +++ line ""
  +++ line (i +++ "public static " +++ b +++ " builder() {") +++ line (i +++ "    return new " +++ b +++ "();") +++ line (i +++ "}") +++ line ""
  +++ line (i +++ "@JsonPOJOBuilder(withPrefix="""")") +++ line (i +++ "public static class " +++ b +++ " {")
  +++ each (fun m => line (i +++ "    private " +++ jtype_text (jm_arg m) +++ " " +++ jm_name m +++ ";")) ms +++ line ""
  +++ line (i +++ "    public " +++ b +++ "() {") +++ line (i +++ "    }") +++ line ""
  +++ line (i +++ "    public " +++ b +++ "(" +++ n +++ " copy) {")
  +++ each (fun m => assign (i +++ "        ") m ("copy.get" +++ big_first (jm_name m) +++ "()")) ms +++ line (i +++ "    }") +++ line ""
  +++ each (builder_setter (i +++ "    ") b) ms
  +++ line (i +++ "    public " +++ n +++ " build() {")
  +++ line (i +++ "        return new " +++ n +++ "(" +++ join ", " (map jm_name ms) +++ ");") +++ line (i +++ "    }") +++ line (i +++ "}").
Definition fluid_setter (i n : string) (m : jmember) : string :=
  line (i +++ "public " +++ n +++ " " +++ jm_name m +++ "(" +++ jtype_text (jm_type m) +++ " val) {")
  +++ assign (i +++ "    ") m "val" +++ line (i +++ "    return this;") +++ line (i +++ "}") +++ line "".
Definition to_string : string :=
  if pretty then line "    @Override" +++ line "    public String toString() {" +++ line "        return Util.pretty(this);" +++ line "    }" else "".
(** the properties of every Java exception; one that is a member of the class is named too if the class has other members *)
Definition inherited : list string := ["message"; "stackTrace"; "cause"; "localizedMessage"; "suppressed"].
Definition ignored (ms : list jmember) : list string :=
  flat_map (fun x => map (fun _ => quote x) (filter (fun m => if string_dec (jm_name m) x then false else true) ms)) inherited.
Definition union_member (m : jmember) : string :=
  line "    @JsonInclude(JsonInclude.Include.NON_EMPTY)" +++ note "    " (jm_comment m) +++ annos_text "    " m
  +++ line ("    public final " +++ jtype_text (jm_type m) +++ " " +++ jm_name m +++ ";").
(** the lines of [l], those but the last with [sep] *)
Fixpoint listed {A} (f : A -> string -> string) (sep last : string) (l : list A) : string :=
  match l with [] => "" | [x] => f x last | x :: r => f x sep +++ listed f sep last r end.

Definition readers : list (string * string) :=
  [("double", "Double.parseDouble(tmp[0])"); ("float", "Float.parseFloat(tmp[0])"); ("long", "Long.parseLong(tmp[0])"); ("int", "Integer.parseInt(tmp[0])");
   ("short", "Short.parseShort(tmp[0])"); ("byte", "Byte.parseByte(tmp[0])"); ("BigDecimal", "new BigDecimal(tmp[0])")].
Fixpoint class_text (i : string) (c : jclass) {struct c} : string :=
  match c with
  | JStruct n thrown ms inner =>
      let lombok := lombok && negb thrown in
      let extends := if thrown then " extends RuntimeException" else "" in
      (if immutable then line (i +++ "@JsonDeserialize(builder = " +++ n +++ "." +++ n +++ "Builder.class)") else "")
      +++ (if thrown then line (i +++ "@JsonIgnoreProperties({" +++ join ", " (ignored ms) +++ "})") else "")
      +++ (if string_dec i "" then
             (if lombok then
                line "@Data" +++ match ms with [] => "" | _ => line "@AllArgsConstructor" end +++ line "@Builder" +++ line "@NoArgsConstructor(force=true)"
              else "")
             +++ line ("public class " +++ n +++ extends +++ " {")
           else line (i +++ "public static class " +++ n +++ extends +++ " {"))
      +++ each (struct_member (i +++ "    ")) ms
      +++ (if lombok then ""
           else (if immutable then constructor (i +++ "    ") n ms +++ each (getter (i +++ "    ")) ms +++ builder (i +++ "    ") n ms
                 else each (fluid_setter (i +++ "    ") n) ms)
                +++ to_string +++ fold_right (fun c acc => class_text (i +++ "    ") c +++ acc) "" inner)
      +++ line "}"
  | JUnion n ms inner =>
      (if lombok then line "@Data" +++ line "@AllArgsConstructor" +++ line "@Builder" +++ line "@NoArgsConstructor" else "")
      +++ line ("public class " +++ n +++ " {") +++ line "    public enum Variant {"
      +++ listed (fun m sep => line ("        " +++ jm_name m +++ sep)) "," "" ms
      +++ line "    }" +++ line "" +++ line "    @JsonIgnore" +++ line "    public Variant variant;" +++ line ""
      +++ each union_member ms
      +++ line "" +++ line "    @JsonCreator"
      +++ line ("    private " +++ n +++ "("
                +++ join ", " (map (fun m => "@JsonProperty(""" +++ jm_name m +++ """) " +++ jtype_text (jm_arg m) +++ " " +++ jm_name m) ms) +++ ") {")
      +++ each (fun m => assign "        " m (jm_name m) +++ line ("        if (" +++ jm_name m +++ " != null) {")
                         +++ line ("            this.variant = Variant." +++ jm_name m +++ ";") +++ line "        }") ms
      +++ line "    }" +++ line ""
      +++ each (fun m => line "" +++ line ("    public static " +++ n +++ " of" +++ big_first (jm_name m) +++ "(" +++ jtype_text (jm_arg m) +++ " v) {")
                         +++ line ("        return new " +++ n +++ "("
                                   +++ join ", " (map (fun w => if string_dec (jm_name m) (jm_name w) then "v" else "null") ms) +++ ");")
                         +++ line "    }") ms
      +++ line "" +++ to_string +++ fold_right (fun c acc => class_text "    " c +++ acc) "" inner +++ line "}"
  | JEnum n es =>
      line ("public enum " +++ n +++ "{")
      +++ listed (fun e sep => let '(s, t, c) := e in
                    "    " +++ s +++ "(""" +++ t +++ """)" +++ sep +++ if string_dec c "" then line "" else comment " " 0 c) "," ";" es
      +++ line ""
      +++ line "    private String repr;" +++ line ""
      +++ line ("    private " +++ n +++ "(String repr) {") +++ line "        this.repr = repr;" +++ line "    }" +++ line ""
      +++ line "    @JsonValue" +++ line "    @Override" +++ line "    public String toString() {" +++ line "        return repr;" +++ line "    }" +++ line ""
      +++ line "    @JsonCreator" +++ line ("    public static " +++ n +++ " fromString(String repr) {")
      +++ line ("        for (" +++ n +++ " e : values()) {") +++ line "            if (e.repr.equals(repr)) {" +++ line "                return e;"
      +++ line "            }" +++ line "        }"
      +++ line ("        throw new IllegalArgumentException(""Invalid string representation for " +++ n +++ ": "" + repr);")
      +++ line "    }" +++ line "" +++ line "}"
  | JUnit n v u e =>
      let vt := jtype_text v in
      let ut := jtype_text u in
      line ("public class " +++ n +++ " {") +++ line ""
      +++ line ("    public final " +++ vt +++ " value;") +++ line ("    public final " +++ ut +++ " unit;") +++ line ""
      +++ line ("    public " +++ n +++ "(" +++ vt +++ " value, @NotNull " +++ ut +++ " unit) {")
      +++ line "        this.value = value;" +++ line "        this.unit = unit;" +++ line "    }" +++ line ""
      +++ line "    @JsonCreator" +++ line ("    public " +++ n +++ "(@NotNull String repr) {") +++ line "        String[] tmp = repr.split("" "");"
      +++ line ("        this.value = " +++ match find (fun x => if string_dec (fst x) vt then true else false) readers with
                                           | Some x => snd x | None => "<bad value type, must be numeric>" end +++ ";")
      +++ line ("        this.unit = " +++
                match e with
                | Some true => ut +++ ".fromString(tmp[1])" | Some false => "tmp[1]"
                | None => "<bad unit type, must be enum or string>"
                end +++ ";")
      +++ line "    }" +++ line ""
      +++ line "    @JsonValue" +++ line "    @Override" +++ line "    public String toString() {" +++ line "        return value + "" "" + unit;" +++ line "    }" +++ line "}"
  end.

(** a file: the banner, the package, the imports and the class with its comment *)
Definition java_text (header pkg body : string) : string :=
  header +++ (if string_dec pkg "" then "" else line ("package " +++ pkg +++ ";")) +++ body.
Definition class_file (header pkg : string) (imports : list string) (c : string) (k : jclass) : string :=
  java_text header pkg
    (match imports with [] => "" | _ => each (fun p => line ("import " +++ p +++ ";")) imports +++ line "" end
     +++ note "" c +++ class_text "" k).
(** an interface: per action its name and the classes of its request and its response *)
Definition interface_file (header pkg n : string) (actions : list (string * string)) : string :=
  java_text header pkg
    (line "" +++ line ("public interface " +++ n +++ " {")
     +++ each (fun a => line "" +++ line ("    public " +++ snd a +++ "Response " +++ fst a +++ "(" +++ snd a +++ "Request req);")) actions
     +++ line "" +++ line "}").
End Text.

(** ** The Java type of a use of a type *)
Definition primitives : list (string * string * string) :=
  [("Bool", "boolean", "Boolean"); ("Int8", "byte", "Byte"); ("Int16", "short", "Short"); ("Int32", "int", "Integer"); ("Int64", "long", "Long");
   ("Float32", "float", "Float"); ("Float64", "double", "Double")].
Definition boxes : list string := ["Byte"; "Short"; "Integer"; "Long"; "Float"; "Double"].
Definition special_names : list string := ["String"; "Decimal"; "Timestamp"; "Array"; "Map"; "UUID"; "Any"].
Definition numbers : list string := ["Int8"; "Int16"; "Int32"; "Int64"; "Float32"; "Float64"; "Boolean"].
Definition opaque (n : string) : Prop := ~ In n (map (fun x => fst (fst x)) primitives) /\ ~ In n boxes /\ ~ In n special_names.

Definition must (r : bool) : list janno := if r then [NotNull] else [].
Definition bounds (ts : typespec) : list janno :=
  match ts_min ts with Some d => [Least d] | None => [] end ++ match ts_max ts with Some d => [Most d] | None => [] end.
Definition dec_bounds (ts : typespec) : list janno :=
  match ts_min ts with Some d => [DecLeast d] | None => [] end ++ match ts_max ts with Some d => [DecMost d] | None => [] end.
Definition string_limits (ts : typespec) : list janno :=
  (if string_dec (ts_pattern ts) "" then [] else [Matches (ts_pattern ts)])
  ++ match ts_minsize ts, ts_maxsize ts with None, None => [] | a, b => [Sized a b] end.
Definition of_spec (f : typespec -> list janno) (o : option typespec) : list janno := match o with Some ts => f ts | None => [] end.

Section Use.
Context (sch : schema) (instants : bool).
Definition stamp_type : jtype := JT (if instants then "Instant" else "Timestamp").
(** [java_use ts n r t a]: the use of the type [n] has the Java type [t] with the annotations [a]; [r]: it is required; [ts]
    says what an array or a map is made of and what the limits are *)
Inductive java_use : option typespec -> string -> bool -> jtype -> list janno -> Prop :=
| ju_primitive ts n p b : In (n, p, b) primitives -> java_use ts n true (JT p) []
| ju_boxed ts n p b : In (n, p, b) primitives -> n <> "Bool" -> java_use ts n false (JT b) (of_spec bounds ts)
| ju_bool ts t a : java_use ts "Boolean" false t a -> java_use ts "Bool" false t a
| ju_box ts n r : In n boxes -> java_use ts n r (JT n) (must r ++ of_spec bounds ts)
| ju_string ts r : java_use ts "String" r (JT "String") (must r ++ of_spec string_limits ts)
| ju_decimal ts r : java_use ts "Decimal" r (JT "BigDecimal") (must r ++ of_spec dec_bounds ts)
| ju_timestamp ts r : java_use ts "Timestamp" r stamp_type (must r ++ if instants then [Writes] else [])
| ju_list r : java_use None "Array" r (JT "List") (must r)
| ju_list_of ts ti t a r : defines sch (ts_items ts) ti -> java_use (Some ti) (ts_items ts) false t a ->
    java_use (Some ts) "Array" r (JTList t) (must r)
| ju_map r : java_use None "Map" r (JT "Map") (must r)
| ju_map_of ts tk k a ti t b r : defines sch (ts_keys ts) tk -> java_use (Some tk) (ts_keys ts) false k a ->
    defines sch (ts_items ts) ti -> java_use (Some ti) (ts_items ts) false t b -> java_use (Some ts) "Map" r (JTMap k t) (must r)
| ju_uuid ts r : java_use ts "UUID" r (JT "UUID") (must r)
| ju_any ts r : java_use ts "Any" r (JT "Object") (must r)
| ju_unknown ts n r : opaque n -> (forall td, ~ defines sch n td) -> java_use ts n r (JT n) (must r)
| ju_number ts n td r t a : opaque n -> defines sch n td -> In (ts_type td) numbers -> java_use (Some td) (ts_type td) r t a -> java_use ts n r t a
| ju_text ts n td r t a : opaque n -> defines sch n td -> ts_type td = "String" -> java_use (Some td) "String" r t a -> java_use ts n r t a
| ju_container ts n td r t a : opaque n -> defines sch n td -> container (ts_type td) -> java_use (Some td) (ts_type td) false t a -> java_use ts n r t a
| ju_uuids ts n td r : opaque n -> defines sch n td -> ts_type td = "UUID" -> java_use ts n r (JT "UUID") (must r)
| ju_decimals ts n td r : opaque n -> defines sch n td -> ts_type td = "Decimal" -> java_use ts n r (JT "BigDecimal") (must r ++ dec_bounds td)
| ju_timestamps ts n td r : opaque n -> defines sch n td -> ts_type td = "Timestamp" ->
    java_use ts n r stamp_type (must r ++ if instants then [Reads; Writes] else [])
| ju_class ts n td r : opaque n -> defines sch n td ->
    ~ In (ts_type td) numbers -> ~ In (ts_type td) ["String"; "Array"; "Map"; "UUID"; "Decimal"; "Timestamp"] -> java_use ts n r (JT n) (must r).

(** ** The class of a type *)
(** a struct written in place has a class of its own, named after the member *)
Definition in_place (ts : typespec) : Prop := ts_type ts = "Struct".
Inductive member_shown (name comment : string) (r : bool) (ts : typespec) : jmember -> Prop :=
| ms_plain t a : ~ in_place ts -> java_use (Some ts) (ts_type ts) r t a ->
    member_shown name comment r ts (mkJM name comment (negb r) a t t (if string_dec (ts_type ts) "Timestamp" then instants else false))
| ms_nested n : in_place ts -> name <> "" -> large_first name n ->
    member_shown name comment r ts (mkJM name comment (negb r) (must r) (JT n) (JT "Struct") false).
(** members as the generator sees them: name, comment, is it required, its type *)
Definition slot : Type := string * string * bool * typespec.
Definition slot_name (s : slot) : string := fst (fst (fst s)).
Definition slot_spec (s : slot) : typespec := snd s.
Definition field_slot (f : fielddef) : slot := (fd_name f, fd_comment f, fd_required f, fd_spec f).
Definition variant_slot (v : variantdef) : slot := (uv_name v, uv_comment v, false, uv_spec v).
Definition slot_shown (s : slot) (m : jmember) : Prop := let '(n, c, r, ts) := s in member_shown n c r ts m.
(** the slots whose types are written in place; of those with the same class name the last one *)
Definition nests (s : slot) (c : string) : Prop := in_place (slot_spec s) /\ large_first (slot_name s) c.
Definition last_nest (ss : list slot) (s : slot) (c : string) : Prop :=
  nests s c /\ exists a b, ss = a ++ s :: b /\ forall s', In s' b -> ~ nests s' c.
(** [lombok]: the classes of structs written in place are left out, and exceptions are made without Lombok *)
Inductive struct_shown (lombok : bool) : list fielddef -> string -> bool -> jclass -> Prop :=
| ss_struct fs n thrown ms inner : (lombok = true -> thrown = true) -> Forall2 slot_shown (map field_slot fs) ms ->
    (forall f, In f fs -> fd_name f <> "package" /\ ~ nests (field_slot f) n) -> inner_shown lombok (map field_slot fs) inner ->
    struct_shown lombok fs n thrown (JStruct n thrown ms inner)
| ss_lombok fs n ms : lombok = true -> Forall2 slot_shown (map field_slot fs) ms ->
    (forall f, In f fs -> fd_name f <> "package" /\ ~ nests (field_slot f) n) -> struct_shown lombok fs n false (JStruct n false ms [])
with inner_shown (lombok : bool) : list slot -> list jclass -> Prop :=
| is_inner ss l inner : NoDup (map snd l) -> (forall s c, In (s, c) l <-> last_nest ss s c) ->
    nested_shown lombok l inner -> inner_shown lombok ss inner
with nested_shown (lombok : bool) : list (slot * string) -> list jclass -> Prop :=
| ns_nil : nested_shown lombok [] []
| ns_cons s n l c cs : struct_shown lombok (ts_fields (slot_spec s)) n false c -> nested_shown lombok l cs -> nested_shown lombok ((s, n) :: l) (c :: cs).
Inductive class_shown (lombok : bool) (thrown : string -> bool) (ts : typespec) (n : string) : jclass -> Prop :=
| cs_struct c : ts_type ts = "Struct" -> struct_shown lombok (ts_fields ts) n (thrown n) c -> class_shown lombok thrown ts n c
| cs_union ms inner : ts_type ts = "Union" -> Forall2 slot_shown (map variant_slot (ts_variants ts)) ms ->
    (forall v, In v (ts_variants ts) -> ~ nests (variant_slot v) n) -> inner_shown lombok (map variant_slot (ts_variants ts)) inner ->
    class_shown lombok thrown ts n (JUnion n ms inner)
| cs_enum l : ts_type ts = "Enum" ->
    Forall2 (fun e x => symbol_shown e (fst x) /\ snd x = ee_comment e) (ts_elements ts) l -> class_shown lombok thrown ts n (JEnum n l)
| cs_unit v a u b k e : ts_type ts = "UnitValue" -> java_use (Some ts) (ts_value ts) true v a -> java_use (Some ts) (ts_unit ts) true u b ->
    defines sch (jtype_text u) k ->
    (e = Some false /\ ts_type k = "String" \/ e = Some true /\ ts_type k = "Enum" \/ e = None /\ ts_type k <> "String" /\ ts_type k <> "Enum") ->
    class_shown lombok thrown ts n (JUnit n v u e).
End Use.

(** ** What a class asks for: imports and helper files *)
Inductive request := Wants (p : string) | Helper | Stamp.
Definition constraint (s : string) : request := Wants ("javax.validation.constraints." +++ s).
Definition annotation (s : string) : request := Wants ("com.fasterxml.jackson.annotation." +++ s).
Definition databind (s : string) : request := Wants ("com.fasterxml.jackson.databind.annotation." +++ s).
Section Ask.
Context (sch : schema) (instants lombok immutable pretty : bool).
Definition stamp_asks (q : request) : Prop :=
  if instants then In q [Wants "java.time.Instant"; databind "JsonSerialize"; databind "JsonDeserialize"; Helper] else q = Stamp.
(** the names of types that are used for a declared type: [r'] says whether the type behind it counts as required *)
Definition stands_for (td : typespec) (r r' : bool) : Prop :=
  In (ts_type td) ("String" :: numbers) /\ r' = r \/ In (ts_type td) ["Array"; "Map"; "UUID"; "Decimal"; "Timestamp"] /\ r' = false.
Inductive use_asks : option typespec -> string -> bool -> request -> Prop :=
| ua_must ts n : ~ In n (map (fun x => fst (fst x)) primitives) -> use_asks ts n true (constraint "NotNull")
| ua_pattern ts r : ts_pattern ts <> "" -> use_asks (Some ts) "String" r (constraint "Pattern")
| ua_size ts r : ts_minsize ts <> None \/ ts_maxsize ts <> None -> use_asks (Some ts) "String" r (constraint "Size")
| ua_decimal ts r : use_asks ts "Decimal" r (Wants "java.math.BigDecimal")
| ua_timestamp ts r q : stamp_asks q -> use_asks ts "Timestamp" r q
| ua_list ts r : use_asks ts "Array" r (Wants "java.util.List")
| ua_items ts ti r q : defines sch (ts_items ts) ti -> use_asks (Some ti) (ts_items ts) false q -> use_asks (Some ts) "Array" r q
| ua_map ts r : use_asks ts "Map" r (Wants "java.util.Map")
| ua_keys ts tk r q : defines sch (ts_keys ts) tk -> use_asks (Some tk) (ts_keys ts) false q -> use_asks (Some ts) "Map" r q
| ua_values ts ti r q : defines sch (ts_items ts) ti -> use_asks (Some ti) (ts_items ts) false q -> use_asks (Some ts) "Map" r q
| ua_uuid ts r : use_asks ts "UUID" r (Wants "java.util.UUID")
| ua_bool ts q : use_asks ts "Boolean" false q -> use_asks ts "Bool" false q
| ua_behind ts n td r r' q : opaque n -> defines sch n td -> stands_for td r r' -> use_asks (Some td) (ts_type td) r' q -> use_asks ts n r q.
(** [top]: a class with a file of its own *)
Inductive struct_asks : list fielddef -> bool -> bool -> request -> Prop :=
| sa_optional fs top thrown f : In f fs -> fd_required f = false -> struct_asks fs top thrown (annotation "JsonInclude")
| sa_required fs top thrown : (forall f, In f fs -> fd_required f = true) -> struct_asks fs top thrown (constraint "NotNull")
| sa_builder fs top thrown q : immutable = true -> In q [databind "JsonDeserialize"; databind "JsonPOJOBuilder"] -> struct_asks fs top thrown q
| sa_thrown fs top : struct_asks fs top true (annotation "JsonIgnoreProperties")
| sa_lombok fs q : lombok = true -> In q [Wants "lombok.Data"; Wants "lombok.Builder"; Wants "lombok.NoArgsConstructor"] -> struct_asks fs true false q
| sa_arguments fs : lombok = true -> fs <> [] -> struct_asks fs true false (Wants "lombok.AllArgsConstructor")
| sa_member fs top thrown f q : In f fs -> use_asks (Some (fd_spec f)) (ts_type (fd_spec f)) (fd_required f) q -> struct_asks fs top thrown q
| sa_pretty fs top thrown : (lombok = true -> thrown = true) -> pretty = true -> struct_asks fs top thrown Helper
| sa_inner fs top thrown s c q : (lombok = true -> thrown = true) -> last_nest (map field_slot fs) s c -> struct_asks (ts_fields (slot_spec s)) false false q ->
    struct_asks fs top thrown q.
Inductive class_asks (thrown : bool) (ts : typespec) : request -> Prop :=
| ca_struct q : ts_type ts = "Struct" -> struct_asks (ts_fields ts) true thrown q -> class_asks thrown ts q
| ca_enum q : ts_type ts = "Enum" -> In q [annotation "JsonValue"; annotation "JsonCreator"] -> class_asks thrown ts q
| ca_union q : ts_type ts = "Union" -> In q [annotation "JsonInclude"; annotation "JsonIgnore"; annotation "JsonCreator"; annotation "JsonProperty"] -> class_asks thrown ts q
| ca_lombok q : ts_type ts = "Union" -> lombok = true ->
    In q [Wants "lombok.Data"; Wants "lombok.AllArgsConstructor"; Wants "lombok.Builder"; Wants "lombok.NoArgsConstructor"] -> class_asks thrown ts q
| ca_variant v q : ts_type ts = "Union" -> In v (ts_variants ts) -> use_asks (Some (uv_spec v)) (ts_type (uv_spec v)) false q -> class_asks thrown ts q
| ca_pretty : ts_type ts = "Union" -> pretty = true -> class_asks thrown ts Helper
| ca_inner s c q : ts_type ts = "Union" -> last_nest (map variant_slot (ts_variants ts)) s c -> struct_asks (ts_fields (slot_spec s)) false false q -> class_asks thrown ts q
| ca_unit q : ts_type ts = "UnitValue" -> In q [constraint "NotNull"; annotation "JsonValue"] -> class_asks thrown ts q
| ca_value q : ts_type ts = "UnitValue" -> use_asks (Some ts) (ts_value ts) true q -> class_asks thrown ts q
| ca_units q : ts_type ts = "UnitValue" -> use_asks (Some ts) (ts_unit ts) true q -> class_asks thrown ts q.
End Ask.

(** ** The files of a model *)
Definition first {A} (P : A -> Prop) (l : list A) (x : A) : Prop := P x /\ exists a b, l = a ++ x :: b /\ forall y, In y a -> ~ P y.
Definition java_body (p : paramspec) : Prop := ps_query p = "" /\ ps_header p = "" /\ ps_path p = false.
Definition plain_output (p : paramspec) : Prop := ps_header p = "".
Definition param_type (p : paramspec) : string := ts_type (fd_spec (ps_field p)).
(** what an action without a name is about: the type of its body or of its result *)
Definition subject (h : httpdef) (t : string) : Prop :=
  (In (h_method h) ["POST"; "PUT"]
   /\ ((exists p, first java_body (h_inputs h) p /\ t = param_type p) \/ ((forall p, In p (h_inputs h) -> ~ java_body p) /\ t = "Object")))
  \/ (~ In (h_method h) ["POST"; "PUT"]
      /\ exists x, h_expected h = Some x
         /\ ((exists p, first plain_output (xp_outputs x) p /\ t = param_type p) \/ ((forall p, In p (xp_outputs x) -> ~ plain_output p) /\ t = "Object"))).
(** the name of the method and the first part of the names of its classes *)
Definition method_named (h : httpdef) (a c : string) : Prop :=
  (h_name h <> "" /\ small_first (h_name h) a \/ h_name h = "" /\ exists t, subject h t /\ a = to_lower (h_method h) +++ t) /\ a <> "" /\ large_first a c.

Section Files.
Context (comment : string -> Z -> string -> string) (quote : string -> string) (dec_text : decimal -> string) (int_text : Z -> string).
Context (lombok immutable pretty instants service : bool) (header package model_package name : string) (sch : schema).
(** package, name without .java, text *)
Definition jout : Type := string * string * string.
Definition with_class (ts : typespec) : Prop := In (ts_type ts) ["Struct"; "UnitValue"; "Enum"; "Union"].
(** the classes of exceptions, unless there is one for all *)
Definition is_thrown (n : string) : Prop := service = false
  /\ exists h x t a, In h (sc_http sch) /\ In x (h_exceptions h) /\ java_use sch instants None (xc_type x) true t a /\ n = jtype_text t.
(** the imports of a file: those [asked] for so far *)
Definition shown_file (asked : request -> Prop) (n c : string) (k : jclass) (f : jout) : Prop :=
  exists imports, ascending imports /\ (forall p, In p imports <-> asked (Wants p))
    /\ f = (model_package, n, class_file comment quote dec_text int_text lombok immutable pretty header model_package imports c k).
Definition both (P Q : request -> Prop) (q : request) : Prop := P q \/ Q q.
Definition type_asks (thrown : string -> bool) (td : typedef) (q : request) : Prop :=
  exists n, large_first (td_name td) n /\ class_asks sch instants lombok immutable pretty (thrown n) (td_spec td) q.
Definition params_ask (ps : list paramspec) : request -> Prop := struct_asks sch instants lombok immutable pretty (map ps_field ps) true false.
(** the type of the answer is looked at too; a text needs the helper *)
Definition answer_asks (x : expectedspec) (q : request) : Prop :=
  exists p, first plain_output (xp_outputs x) p
    /\ (use_asks sch instants None (param_type p) true q \/ q = Helper /\ exists t a, java_use sch instants None (param_type p) true t a /\ jtype_text t = "String").
Definition action_asks (h : httpdef) (q : request) : Prop :=
  params_ask (h_inputs h) q \/ exists x, h_expected h = Some x /\ (params_ask (xp_outputs x) q \/ answer_asks x q).
Definition exceptions_ask (q : request) : Prop :=
  service = false /\ exists h x, In h (sc_http sch) /\ In x (h_exceptions h) /\ use_asks sch instants None (xc_type x) true q.
Definition types_ask (thrown : string -> bool) (l : list typedef) (q : request) : Prop := exists td, In td l /\ type_asks thrown td q.
Definition actions_ask (l : list httpdef) (q : request) : Prop := exists h, In h l /\ action_asks h q.
Definition type_file (thrown : string -> bool) (asked : request -> Prop) (td : typedef) (f : jout) : Prop :=
  exists n k, td_name td <> "" /\ large_first (td_name td) n /\ class_shown sch instants lombok thrown (td_spec td) n k /\ shown_file asked n (td_comment td) k f.
Definition params_file (asked : request -> Prop) (ps : list paramspec) (n : string) (f : jout) : Prop :=
  exists k, struct_shown sch instants lombok (map ps_field ps) n false k /\ shown_file asked n "" k f.
(** the imports asked for before stay: they are those of all the classes so far *)
Inductive types_files (thrown : string -> bool) : (request -> Prop) -> list typedef -> list jout -> Prop :=
| tf_nil before : types_files thrown before [] []
| tf_class before td l f fs : with_class (td_spec td) -> type_file thrown (both before (type_asks thrown td)) td f ->
    types_files thrown (both before (type_asks thrown td)) l fs -> types_files thrown before (td :: l) (f :: fs)
| tf_none before td l fs : td_name td <> "" -> ~ with_class (td_spec td) -> types_files thrown before l fs -> types_files thrown before (td :: l) fs.
Definition action_files (before : request -> Prop) (h : httpdef) (ac : string * string) (fs : list jout) : Prop :=
  method_named h (fst ac) (snd ac) /\ exists x f g, h_expected h = Some x /\ fs = [f; g]
    /\ params_file (both before (params_ask (h_inputs h))) (h_inputs h) (snd ac +++ "Request") f
    /\ params_file (both (both before (params_ask (h_inputs h))) (params_ask (xp_outputs x))) (xp_outputs x) (snd ac +++ "Response") g
    /\ forall p, first plain_output (xp_outputs x) p -> exists t a, java_use sch instants None (param_type p) true t a.
Inductive actions_files : (request -> Prop) -> list httpdef -> list (string * string) -> list jout -> Prop :=
| af_nil before : actions_files before [] [] []
| af_cons before h l ac acs f fs : action_files before h ac f -> actions_files (both before (action_asks h)) l acs fs ->
    actions_files before (h :: l) (ac :: acs) (f ++ fs).
Definition interface_files (before : request -> Prop) (fs : list jout) : Prop :=
  name = "" /\ fs = []
  \/ name <> "" /\ exists acs gs, actions_files before (sc_http sch) acs gs /\ fs = (model_package, name, interface_file header model_package name acs) :: gs.
(** the files that are the same for every model *)
Definition fixed_file (b : bool) (pkg n s : string) : list jout := if b then [(pkg, n, java_text header pkg s)] else [].
Context (stamp_text helper_text error_text : string).
(** the helper files are there exactly if they are asked for *)
Definition java_files (fs : list jout) : Prop :=
  exists thrown stamp helper ts is, (forall n, thrown n = true <-> is_thrown n)
    /\ (service = false -> forall h x, In h (sc_http sch) -> In x (h_exceptions h) -> exists t a, java_use sch instants None (xc_type x) true t a)
    /\ types_files thrown exceptions_ask (sc_types sch) ts /\ interface_files (both exceptions_ask (types_ask thrown (sc_types sch))) is
    /\ let asked q := exceptions_ask q \/ types_ask thrown (sc_types sch) q \/ name <> "" /\ actions_ask (sc_http sch) q in
       (stamp = true <-> asked Stamp) /\ (helper = true <-> asked Helper)
    /\ fs = ts ++ is ++ fixed_file stamp package "Timestamp" stamp_text ++ fixed_file helper model_package "Util" helper_text
            ++ fixed_file service model_package "ServiceException" error_text.
End Files.

(** ** When the files can be generated *)
Section Good.
Context (sch : schema) (instants lombok immutable : bool).
Definition has_java (ts : option typespec) (n : string) (r : bool) : Prop := exists t a, java_use sch instants ts n r t a.
(** with Lombok the body of a class is left out, but not that of an exception *)
Definition whole (thrown : Prop) : Prop := lombok = true -> thrown.
Definition slot_good (cls : string) (s : slot) : Prop :=
  let '(n, _, r, ts) := s in ~ nests s cls /\ has_java (Some ts) (ts_type ts) r /\ (in_place ts -> n <> "").
Inductive fields_good : list fielddef -> string -> Prop -> Prop :=
| fg_fields fs n (thrown : Prop) :
    (forall f, In f fs -> fd_name f <> "package" /\ slot_good n (field_slot f)) ->
    (whole thrown -> (immutable = true -> forall f, In f fs -> fd_name f <> "")
                     /\ forall s c, last_nest (map field_slot fs) s c -> fields_good (ts_fields (slot_spec s)) c False) ->
    fields_good fs n thrown.
Definition class_good (thrown : Prop) (ts : typespec) (n : string) : Prop :=
  ts_type ts = "Struct" /\ fields_good (ts_fields ts) n thrown
  \/ ts_type ts = "Union"
     /\ (forall v, In v (ts_variants ts) -> uv_name v <> "" /\ slot_good n (variant_slot v))
     /\ (forall s c, last_nest (map variant_slot (ts_variants ts)) s c -> fields_good (ts_fields (slot_spec s)) c False)
  \/ ts_type ts = "Enum"
  \/ ts_type ts = "UnitValue" /\ has_java (Some ts) (ts_value ts) true
     /\ exists u b, java_use sch instants (Some ts) (ts_unit ts) true u b /\ known sch (jtype_text u).
Definition action_good (h : httpdef) : Prop :=
  exists a c x, method_named h a c /\ h_expected h = Some x
    /\ fields_good (map ps_field (h_inputs h)) (c +++ "Request") False /\ fields_good (map ps_field (xp_outputs x)) (c +++ "Response") False
    /\ forall p, first plain_output (xp_outputs x) p -> has_java None (param_type p) true.
Definition java_good (service : bool) (name : string) : Prop :=
  (service = false -> forall h x, In h (sc_http sch) -> In x (h_exceptions h) -> has_java None (xc_type x) true)
  /\ (forall td, In td (sc_types sch) -> td_name td <> ""
        /\ (with_class (td_spec td) -> forall n, large_first (td_name td) n -> class_good (is_thrown instants service sch n) (td_spec td) n))
  /\ (name <> "" -> forall h, In h (sc_http sch) -> action_good h).
End Good.
(** ** No type leads back to itself through arrays and maps *)
Definition descends (sch : schema) (rank : string -> nat) : Prop := forall td, In td (sc_types sch) ->
  let ts := td_spec td in
  (ts_type ts = "Array" -> plain_part sch (ts_items ts) /\ rank (ts_items ts) < rank (td_name td))
  /\ (ts_type ts = "Map" -> plain_part sch (ts_keys ts) /\ rank (ts_keys ts) < rank (td_name td)
        /\ plain_part sch (ts_items ts) /\ rank (ts_items ts) < rank (td_name td)).
(** a unit can be text or an enumeration *)
Definition good_unit (sch : schema) (u : string) : Prop := exists ts, defines sch u ts /\ In (ts_type ts) ["String"; "Enum"].
