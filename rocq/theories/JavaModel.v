(** java/export_java.go, java_model.go, java_util.go, java_timestamp.go: the Java files generated for a model.
    What generating a class changes in the generator is a list of events: imports, the flags NeedTimestamp, NeedInstant and
    NeedUtil, and setting [gen.Err].  Nothing reads them before the class is complete, except [gen.Err] in Emit (a text with an
    error is dropped), in CreateUnitValuePojo (TypeName does not set it) and in EmitFluidSetter (what it skips then has been done
    for the same field before). *)
From Verif Require Import GoStr Outcome Value Schema Model Misc Generator Golang GoServer OpenApi Java.

Inductive jevent := JImport (r : string) | JTimestamp | JInstant | JUtil | JError.
(** export_java.go:15-44: the fields the model code depends on; [jo_name] is [gen.Name] *)
Record jopts := mkJO {
  jo_name : string; jo_package : string; jo_model_package : string; jo_header : string;
  jo_lombok : bool; jo_immutable : bool; jo_instants : bool; jo_json : bool; jo_service_exception : bool }.
(** what TypeName returns, with its events *)
Record jname := mkJN { jn_text : string; jn_annos : list string; jn_anon : option typespec; jn_events : list jevent }.

Definition not_null : jevent := JImport "javax.validation.constraints.NotNull".
Definition jackson (s : string) : jevent := JImport ("com.fasterxml.jackson." +++ s).

Section Java.
Context (dec_text : decimal -> string) (m : model) (o : jopts).

(** export_java.go:678-705: the annotations of a string *)
Definition size_annos (ts : typespec) : list string * list jevent :=
  match ts_minsize ts, ts_maxsize ts with
  | None, None => ([], [])
  | a, b =>
      let smin := match a with Some z => "min=" +++ sprint z | None => "" end in
      let smax := match b with Some z => (if smin =?s "" then "" else ", ") +++ "max=" +++ sprint z | None => "" end in
      (["@Size(" +++ smin +++ smax +++ ")"], [JImport "javax.validation.constraints.Size"])
  end.
Definition string_annos (ts : option typespec) : list string * list jevent :=
  match ts with
  | None => ([], [])
  | Some ts =>
      let '(p, e) := if ts_pattern ts =?s "" then ([], [])
                     else (["@Pattern(regexp=" +++ go_quote (ts_pattern ts) +++ ")"], [JImport "javax.validation.constraints.Pattern"]) in
      let '(s, e') := size_annos ts in (p ++ s, e ++ e')
  end.
(** export_java.go:707-714, 718-725, 772-778: the annotations of a number *)
Definition bound_annos (lo hi : string) (q : string -> string) (ts : typespec) : list string :=
  match ts_min ts with Some d => ["@" +++ lo +++ "(" +++ q (dec_text d) +++ ")"] | None => [] end
  ++ match ts_max ts with Some d => ["@" +++ hi +++ "(" +++ q (dec_text d) +++ ")"] | None => [] end.
Definition opt_bounds (lo hi : string) (q : string -> string) (ts : option typespec) : list string :=
  match ts with Some ts => bound_annos lo hi q ts | None => [] end.
(** export_java.go:728-736, 781-793; [extra]: the annotations before @JsonSerialize *)
Definition timestamp_name (extra annos : list string) : jname :=
  if jo_instants o then
    mkJN "Instant" (annos ++ extra ++ ["@JsonSerialize(using = Util.InstantSerializer.class)"]) None
      [JImport "java.time.Instant"; jackson "databind.annotation.JsonSerialize"; jackson "databind.annotation.JsonDeserialize"; JUtil; JInstant]
  else mkJN "Timestamp" annos None [JTimestamp].
Definition boxed_names : list string := ["Byte"; "Short"; "Integer"; "Long"; "Float"; "Double"].
Definition with_events (e : list jevent) (n : jname) : jname := mkJN (jn_text n) (jn_annos n) (jn_anon n) (e ++ jn_events n).

(** export_java.go:659-798 TypeName.  The fuel bounds its recursion; [None] is a nil [ts]. *)
Fixpoint type_name (fuel : nat) (ts : option typespec) (name : string) (required : bool) : result unit jname :=
  match fuel with
  | O => OutOfFuel
  | S f =>
      match (if required then primitive_type name else None) with
      | Some p => Ok (mkJN p [] None [])
      | None =>
          let annos := if required then ["@NotNull"] else [] in
          let ev := if required then [not_null] else [] in
          let name := match primitive_type name with
                      | Some p => if p =?s "int" then "Integer" else capitalize p
                      | None => name
                      end in
          r <- (if name =?s "String" then
                  let '(a, e) := string_annos ts in Ok (mkJN "String" (annos ++ a) None e)
                else if str_mem name boxed_names then
                  Ok (mkJN name (annos ++ opt_bounds "Min" "Max" (fun s => s) ts) None [])
                else if name =?s "Decimal" then
                  Ok (mkJN "BigDecimal" (annos ++ opt_bounds "DecimalMin" "DecimalMax" go_quote ts) None [JImport "java.math.BigDecimal"])
                else if name =?s "Timestamp" then Ok (timestamp_name [] annos)
                else if name =?s "Array" then
                  match ts with
                  | None => Ok (mkJN "List" annos None [JImport "java.util.List"])
                  | Some ts =>
                      match find_type m (ts_items ts) with
                      | None => Panic
                      | Some td =>
                          i <- type_name f (Some (td_spec td)) (ts_items ts) false ;;
                          Ok (mkJN ("List<" +++ jn_text i +++ ">") annos None (JImport "java.util.List" :: jn_events i))
                      end
                  end
                else if name =?s "Map" then
                  match ts with
                  | None => Ok (mkJN "Map" annos None [JImport "java.util.Map"])
                  | Some ts =>
                      match find_type m (ts_keys ts) with
                      | None => Panic
                      | Some kt =>
                          k <- type_name f (Some (td_spec kt)) (ts_keys ts) false ;;
                          match find_type m (ts_items ts) with
                          | None => Panic
                          | Some it =>
                              i <- type_name f (Some (td_spec it)) (ts_items ts) false ;;
                              Ok (mkJN ("Map<" +++ jn_text k +++ "," +++ jn_text i +++ ">") annos None
                                    (JImport "java.util.Map" :: jn_events k ++ jn_events i))
                          end
                      end
                  end
                else if name =?s "UUID" then Ok (mkJN name annos None [JImport "java.util.UUID"])
                else if name =?s "Any" then Ok (mkJN "Object" annos None [])
                else
                  match find_type m name with
                  | None => Ok (mkJN name annos None [])
                  | Some td =>
                      let t := ts_type (td_spec td) in
                      if str_mem t ["Int8"; "Int16"; "Int32"; "Int64"; "Float32"; "Float64"; "Boolean"]
                      then type_name f (Some (td_spec td)) t required
                      else if t =?s "String" then type_name f (Some (td_spec td)) "String" required
                      else if t =?s "Array" then type_name f (Some (td_spec td)) "Array" false
                      else if t =?s "Map" then type_name f (Some (td_spec td)) "Map" false
                      else if (t =?s "Struct") && (name =?s "Struct") then Ok (mkJN name annos ts [])
                      else if t =?s "UUID" then Ok (mkJN "UUID" annos None [JImport "java.util.UUID"])
                      else if t =?s "Decimal" then
                        Ok (mkJN "BigDecimal" (annos ++ bound_annos "DecimalMin" "DecimalMax" go_quote (td_spec td)) None [JImport "java.math.BigDecimal"])
                      else if t =?s "Timestamp" then
                        Ok (timestamp_name ["@JsonDeserialize(using = Util.InstantDeserializer.class)"] annos)
                      else Ok (mkJN name annos None [])
                  end) ;;
          Ok (with_events ev r)
      end
  end.

Context (fuel : nat) (ord : list string -> list string).   (* [ord]: the order in which Go ranges over a map *)

(** the Java name of a field or variant *)
Definition use_name (ts : typespec) (required : bool) : result unit jname := type_name fuel (Some ts) (ts_type ts) required.
(** the text of a class with the events *)
Definition piece := result unit (string * list jevent).
Fixpoint pieces {A} (f : A -> piece) (l : list A) : piece :=
  match l with
  | [] => Ok ("", [])
  | x :: r => '(s, e) <- f x ;; '(s', e') <- pieces f r ;; Ok (s +++ s', e ++ e')
  end.
Definition just (s : string) : piece := Ok (s, []).
(** a text that needs the Java name of a type *)
Definition named (ts : typespec) (required : bool) (k : string -> string) : piece :=
  n <- use_name ts required ;; Ok (k (jn_text n), jn_events n).
Fixpoint typed_args (fields : list fielddef) : result unit (list string * list jevent) :=
  match fields with
  | [] => Ok ([], [])
  | f :: r =>
      n <- use_name (fd_spec f) (fd_required f) ;;
      '(a, e) <- typed_args r ;; Ok ((jn_text n +++ " " +++ fd_name f) :: a, jn_events n ++ e)
  end.

(** export_java.go:343-354 *)
Definition emit_constructor (cls indent : string) (fields : list fielddef) : piece :=
  '(args, e) <- typed_args fields ;;
  Ok (indent +++ "    public " +++ cls +++ "(" +++ join ", " args +++ ") {" +++ nl
      +++ String.concat "" (map (fun f : fielddef => indent +++ "        this." +++ fd_name f +++ " = " +++ fd_name f +++ ";" +++ nl) fields)
      +++ indent +++ "    }" +++ nl +++ nl, e).
(** export_java.go:356-361 *)
Definition emit_getter (indent : string) (f : fielddef) : piece :=
  n <- use_name (fd_spec f) (fd_required f) ;;
  c <- go_capitalize (fd_name f) ;;
  Ok (indent +++ "    public " +++ jn_text n +++ " get" +++ c +++ "() {" +++ nl
      +++ indent +++ "        return " +++ fd_name f +++ ";" +++ nl
      +++ indent +++ "    }" +++ nl +++ nl, jn_events n).
(** export_java.go:363-412; [indent] is already that of a member *)
Definition emit_builder (cls indent : string) (fields : list fielddef) : piece :=
  let b := cls +++ "Builder" in
  '(privates, e1) <- pieces (fun f : fielddef => named (fd_spec f) (fd_required f) (fun t => indent +++ "    private " +++ t +++ " " +++ fd_name f +++ ";" +++ nl)) fields ;;
  '(copies, e2) <- pieces (fun f : fielddef =>
      c <- go_capitalize (fd_name f) ;; just (indent +++ "        this." +++ fd_name f +++ " = copy.get" +++ c +++ "();" +++ nl)) fields ;;
  '(setters, e3) <- pieces (fun f : fielddef =>
      let stamp := (ts_type (fd_spec f) =?s "Timestamp") && jo_instants o in
      '(s, e) <- named (fd_spec f) (fd_required f) (fun t =>
        (if stamp then indent +++ "    @JsonDeserialize(using = Util.InstantDeserializer.class)" +++ nl else "")
        +++ indent +++ "    public " +++ b +++ " " +++ fd_name f +++ "(" +++ t +++ " " +++ fd_name f +++ ") {" +++ nl
        +++ indent +++ "        this." +++ fd_name f +++ " = " +++ fd_name f +++ ";" +++ nl
        +++ indent +++ "        return this;" +++ nl
        +++ indent +++ "    }" +++ nl +++ nl) ;;
      Ok (s, e ++ if stamp then [JUtil] else [])) fields ;;
  Ok (indent +++ "public " +++ b +++ " toBuilder() {" +++ nl +++ indent +++ "    return new " +++ b +++ "(this);" +++ nl +++ indent +++ "}" +++ nl +++ nl
      +++ indent +++ "public static " +++ b +++ " builder() {" +++ nl +++ indent +++ "    return new " +++ b +++ "();" +++ nl +++ indent +++ "}" +++ nl +++ nl
      +++ indent +++ "@JsonPOJOBuilder(withPrefix="""")" +++ nl +++ indent +++ "public static class " +++ b +++ " {" +++ nl
      +++ privates +++ nl
      +++ indent +++ "    public " +++ b +++ "() {" +++ nl +++ indent +++ "    }" +++ nl +++ nl
      +++ indent +++ "    public " +++ b +++ "(" +++ cls +++ " copy) {" +++ nl +++ copies +++ indent +++ "    }" +++ nl +++ nl
      +++ setters
      +++ indent +++ "    public " +++ cls +++ " build() {" +++ nl
      +++ indent +++ "        return new " +++ cls +++ "(" +++ join ", " (map (fun f : fielddef => fd_name f) fields) +++ ");" +++ nl
      +++ indent +++ "    }" +++ nl +++ indent +++ "}" +++ nl, e1 ++ e2 ++ e3).
(** export_java.go:643-657 *)
Definition emit_setter (cls indent : string) (f : fielddef) : piece :=
  n <- use_name (fd_spec f) (fd_required f) ;;
  t <- (match jn_anon n with Some _ => go_capitalize (fd_name f) | None => Ok (jn_text n) end) ;;
  Ok (indent +++ "    public " +++ cls +++ " " +++ fd_name f +++ "(" +++ t +++ " val) {" +++ nl
      +++ indent +++ "        this." +++ fd_name f +++ " = val;" +++ nl
      +++ indent +++ "        return this;" +++ nl
      +++ indent +++ "    }" +++ nl +++ nl, jn_events n).
(** export_java.go:325-330, 567-572 *)
Definition pretty_method : string :=
  "    @Override" +++ nl +++ "    public String toString() {" +++ nl +++ "        return Util.pretty(this);" +++ nl +++ "    }" +++ nl.
Definition emit_pretty : string * list jevent := if jo_json o then (pretty_method, [JUtil]) else ("", []).

(** export_java.go:281-311, 482-504: the declarations of the members.  [inner] is the class generated for an anonymous struct;
    the result has the text, the events, the map [nested] from the names of inner classes, and whether the loop returned with an error. *)
Definition inners := list (string * piece).
Definition member_line (indent : string) (annos : list string) (decl : string) : string :=
  String.concat "" (map (fun a => indent +++ "    " +++ a +++ nl) annos) +++ decl.
Fixpoint emit_members {A} (name : A -> string) (before : A -> string) (decl : A -> string -> string) (spec : A -> typespec) (required keyword : A -> bool)
    (cls indent : string) (l : list (A * piece)) (nested : inners) : result unit (string * list jevent * inners * bool) :=
  match l with
  | [] => Ok ("", [], nested, false)
  | (x, inner) :: r =>
      if keyword x then Panic
      else
        n <- use_name (spec x) (required x) ;;
        tn <- (match jn_anon n with Some _ => go_capitalize (name x) | None => Ok (jn_text n) end) ;;
        match jn_anon n with
        | Some _ =>
            if tn =?s cls then Ok (before x, jn_events n, nested, true)
            else
              '(s, e, ns, bad) <- emit_members name before decl spec required keyword cls indent r (assoc_set tn inner nested) ;;
              Ok (before x +++ member_line indent (jn_annos n) (decl x tn) +++ s, jn_events n ++ e, ns, bad)
        | None =>
            '(s, e, ns, bad) <- emit_members name before decl spec required keyword cls indent r nested ;;
            Ok (before x +++ member_line indent (jn_annos n) (decl x tn) +++ s, jn_events n ++ e, ns, bad)
        end
  end.
(** export_java.go:333-337, 573-577 *)
Definition emit_nested (nested : inners) : piece :=
  pieces (fun k => match assoc k nested with Some p => p | None => just "" end) (ord (map fst nested)).

Definition comment_text (indent c : string) : string := if c =?s "" then "" else format_comment indent "// " c 100 false.
(** export_java.go:227-233; the panic is at 283-285 *)
Definition reserved_keyword (n : string) : bool := n =?s "package".

(** export_java.go:262-273 *)
Definition ignored_fields (fields : list fielddef) : list string :=
  flat_map (fun x => flat_map (fun f : fielddef => if fd_name f =?s x then [] else [go_quote x]) fields)
    ["message"; "stackTrace"; "cause"; "localizedMessage"; "suppressed"].
(** export_java.go:235-341; [exceptions] are the keys of the map.  A nested struct has the type spec of a field, so that the
    recursion is on the type spec; its class is generated only if [nested] holds it. *)
Fixpoint create_struct (ts : typespec) (cls indent : string) (exceptions : list string) {struct ts} : piece :=
  let fields := ts_fields ts in
  let thrown := str_mem cls exceptions in
  let lombok := jo_lombok o && negb thrown in
  let optional := existsb (fun f : fielddef => negb (fd_required f)) fields in
  let extends := if thrown then " extends RuntimeException" else "" in
  let e0 := (if optional then [jackson "annotation.JsonInclude"] else [not_null])
            ++ (if jo_immutable o then [jackson "databind.annotation.JsonDeserialize"; jackson "databind.annotation.JsonPOJOBuilder"] else [])
            ++ (if thrown then [jackson "annotation.JsonIgnoreProperties"] else [])
            ++ (if (indent =?s "") && lombok then
                  JImport "lombok.Data" :: match fields with [] => [] | _ => [JImport "lombok.AllArgsConstructor"] end
                  ++ [JImport "lombok.Builder"; JImport "lombok.NoArgsConstructor"]
                else []) in
  let head :=
    (if jo_immutable o then indent +++ "@JsonDeserialize(builder = " +++ cls +++ "." +++ cls +++ "Builder.class)" +++ nl else "")
    +++ (if thrown then indent +++ "@JsonIgnoreProperties({" +++ join ", " (ignored_fields fields) +++ "})" +++ nl else "")
    +++ (if indent =?s "" then
           (if lombok then
              "@Data" +++ nl +++ match fields with [] => "" | _ => "@AllArgsConstructor" +++ nl end
              +++ "@Builder" +++ nl +++ "@NoArgsConstructor(force=true)" +++ nl
            else "")
           +++ "public class " +++ cls +++ extends +++ " {" +++ nl
         else indent +++ "public static class " +++ cls +++ extends +++ " {" +++ nl) in
  '(members, e1, nested, bad) <- emit_members (fun f : fielddef => fd_name f)
      (fun f => comment_text (indent +++ "    ") (fd_comment f)
                +++ if fd_required f then "" else indent +++ "    @JsonInclude(JsonInclude.Include.NON_EMPTY) /* Optional field */" +++ nl)
      (fun f t => indent +++ (if jo_immutable o then "    private final " else "    public ") +++ t +++ " " +++ fd_name f +++ ";" +++ nl +++ nl)
      (fun f => fd_spec f) (fun f => fd_required f) (fun f => reserved_keyword (fd_name f)) cls indent
      (map (fun f : fielddef => (f, create_struct (fd_spec f) (capitalize (fd_name f)) (indent +++ "    ") [])) fields) [] ;;
  if bad then Ok (head +++ members, e0 ++ e1 ++ [JError])
  else if lombok then Ok (head +++ members +++ "}" +++ nl, e0 ++ e1)
  else
    '(body, e2) <- (if jo_immutable o then
                      '(a, ea) <- emit_constructor cls indent fields ;;
                      '(b, eb) <- pieces (emit_getter indent) fields ;;
                      '(c, ec) <- emit_builder cls (indent +++ "    ") fields ;; Ok (a +++ b +++ c, ea ++ eb ++ ec)
                    else pieces (emit_setter cls indent) fields) ;;
    let '(p, e3) := emit_pretty in
    '(inner, e4) <- emit_nested nested ;;
    Ok (head +++ members +++ body +++ p +++ inner +++ "}" +++ nl, e0 ++ e1 ++ e2 ++ e3 ++ e4).

(** export_java.go:414-457 *)
Definition enum_line (delim : string) (e : enumelt) : string :=
  let val := let v := get_annotation (ee_annos e) "x_enumValue" in if v =?s "" then ee_symbol e else v in
  "    " +++ ee_symbol e +++ "(""" +++ val +++ """)" +++ delim
  +++ (if ee_comment e =?s "" then nl else format_comment " " "// " (ee_comment e) 0 false).
Fixpoint enum_lines (es : list enumelt) : string :=
  match es with
  | [] => ""
  | e :: r => enum_line (match r with [] => ";" | _ => "," end) e +++ enum_lines r
  end.
Definition create_enum (es : list enumelt) (cls : string) : string * list jevent :=
  ("public enum " +++ cls +++ "{" +++ nl +++ enum_lines es +++ nl
   +++ "    private String repr;" +++ nl +++ nl
   +++ "    private " +++ cls +++ "(String repr) {" +++ nl +++ "        this.repr = repr;" +++ nl +++ "    }" +++ nl +++ nl
   +++ "    @JsonValue" +++ nl +++ "    @Override" +++ nl
   +++ "    public String toString() {" +++ nl +++ "        return repr;" +++ nl +++ "    }" +++ nl +++ nl
   +++ "    @JsonCreator" +++ nl
   +++ "    public static " +++ cls +++ " fromString(String repr) {" +++ nl
   +++ "        for (" +++ cls +++ " e : values()) {" +++ nl
   +++ "            if (e.repr.equals(repr)) {" +++ nl
   +++ "                return e;" +++ nl
   +++ "            }" +++ nl
   +++ "        }" +++ nl
   +++ "        throw new IllegalArgumentException(""Invalid string representation for " +++ cls +++ ": "" + repr);" +++ nl
   +++ "    }" +++ nl +++ nl +++ "}" +++ nl,
   [jackson "annotation.JsonValue"; jackson "annotation.JsonCreator"]).

(** export_java.go:459-579 *)
Fixpoint union_args (vs : list variantdef) : result unit (list string * list jevent) :=
  match vs with
  | [] => Ok ([], [])
  | v :: r =>
      n <- use_name (uv_spec v) false ;;
      '(a, e) <- union_args r ;;
      Ok (("@JsonProperty(""" +++ uv_name v +++ """) " +++ jn_text n +++ " " +++ uv_name v) :: a, jn_events n ++ e)
  end.
Definition create_union (vs : list variantdef) (cls : string) : piece :=
  let e0 := [jackson "annotation.JsonInclude"; jackson "annotation.JsonIgnore"; jackson "annotation.JsonCreator"; jackson "annotation.JsonProperty"]
            ++ if jo_lombok o then [JImport "lombok.Data"; JImport "lombok.AllArgsConstructor"; JImport "lombok.Builder"; JImport "lombok.NoArgsConstructor"] else [] in
  let head :=
    (if jo_lombok o then "@Data" +++ nl +++ "@AllArgsConstructor" +++ nl +++ "@Builder" +++ nl +++ "@NoArgsConstructor" +++ nl else "")
    +++ "public class " +++ cls +++ " {" +++ nl +++ "    public enum Variant {" +++ nl
    +++ (fix go (l : list variantdef) := match l with
                     | [] => ""
                     | v :: r => "        " +++ uv_name v +++ (match r with [] => "" | _ => "," end) +++ nl +++ go r
                     end) vs
    +++ "    }" +++ nl +++ nl +++ "    @JsonIgnore" +++ nl +++ "    public Variant variant;" +++ nl +++ nl in
  '(members, e1, nested, bad) <- emit_members (fun v : variantdef => uv_name v)
      (fun v => "    @JsonInclude(JsonInclude.Include.NON_EMPTY)" +++ nl +++ comment_text "    " (uv_comment v))
      (fun v t => "    public final " +++ t +++ " " +++ uv_name v +++ ";" +++ nl)
      (fun v => uv_spec v) (fun _ => false) (fun _ => false) cls ""
      (map (fun v : variantdef => (v, create_struct (uv_spec v) (capitalize (uv_name v)) "    " [])) vs) [] ;;
  if bad then Ok (head +++ members, e0 ++ e1 ++ [JError])
  else
    '(args, e2) <- union_args vs ;;
    '(makers, e3) <- pieces (fun v : variantdef =>
        n <- use_name (uv_spec v) false ;;
        c <- go_capitalize (uv_name v) ;;
        Ok (nl +++ "    public static " +++ cls +++ " of" +++ c +++ "(" +++ jn_text n +++ " v) {" +++ nl
            +++ "        return new " +++ cls +++ "("
            +++ join ", " (map (fun w : variantdef => if uv_name v =?s uv_name w then "v" else "null") vs) +++ ");" +++ nl
            +++ "    }" +++ nl, jn_events n)) vs ;;
    let '(p, e4) := emit_pretty in
    '(inner, e5) <- emit_nested nested ;;
    Ok (head +++ members +++ nl +++ "    @JsonCreator" +++ nl +++ "    private " +++ cls +++ "(" +++ join ", " args +++ ") {" +++ nl
        +++ String.concat "" (map (fun v : variantdef =>
              "        this." +++ uv_name v +++ " = " +++ uv_name v +++ ";" +++ nl
              +++ "        if (" +++ uv_name v +++ " != null) {" +++ nl
              +++ "            this.variant = Variant." +++ uv_name v +++ ";" +++ nl
              +++ "        }" +++ nl) vs)
        +++ "    }" +++ nl +++ nl +++ makers +++ nl +++ p +++ inner +++ "}" +++ nl, e0 ++ e1 ++ e2 ++ e3 ++ e4 ++ e5).

(** export_java.go:581-641 *)
Definition parse_value (t : string) : string :=
  if t =?s "double" then "Double.parseDouble(tmp[0])" else if t =?s "float" then "Float.parseFloat(tmp[0])"
  else if t =?s "long" then "Long.parseLong(tmp[0])" else if t =?s "int" then "Integer.parseInt(tmp[0])"
  else if t =?s "short" then "Short.parseShort(tmp[0])" else if t =?s "byte" then "Byte.parseByte(tmp[0])"
  else if t =?s "BigDecimal" then "new BigDecimal(tmp[0])" else "<bad value type, must be numeric>".
Definition create_unit (ts : typespec) (cls : string) : piece :=
  v <- type_name fuel (Some ts) (ts_value ts) true ;;
  u <- type_name fuel (Some ts) (ts_unit ts) true ;;
  match find_type m (jn_text u) with
  | None => Panic
  | Some ut =>
      let k := ts_type (td_spec ut) in
      let vt := jn_text v in
      let uty := jn_text u in
      let read := if k =?s "String" then "tmp[1]" else if k =?s "Enum" then uty +++ ".fromString(tmp[1])"
                  else "<bad unit type, must be enum or string>" in
      Ok ("public class " +++ cls +++ " {" +++ nl +++ nl
          +++ "    public final " +++ vt +++ " value;" +++ nl +++ "    public final " +++ uty +++ " unit;" +++ nl +++ nl
          +++ "    public " +++ cls +++ "(" +++ vt +++ " value, @NotNull " +++ uty +++ " unit) {" +++ nl
          +++ "        this.value = value;" +++ nl +++ "        this.unit = unit;" +++ nl +++ "    }" +++ nl +++ nl
          +++ "    @JsonCreator" +++ nl +++ "    public " +++ cls +++ "(@NotNull String repr) {" +++ nl
          +++ "        String[] tmp = repr.split("" "");" +++ nl
          +++ "        this.value = " +++ parse_value vt +++ ";" +++ nl +++ "        this.unit = " +++ read +++ ";" +++ nl +++ "    }" +++ nl +++ nl
          +++ "    @JsonValue" +++ nl +++ "    @Override" +++ nl +++ "    public String toString() {" +++ nl
          +++ "        return value + "" "" + unit;" +++ nl +++ "    }" +++ nl +++ "}" +++ nl,
          not_null :: jackson "annotation.JsonValue" :: jn_events v ++ jn_events u)
  end.

(** ** Files *)
Record jfile := mkJF { jf_package : string; jf_name : string; jf_text : string }.
(** [gen.imports], the flags, [gen.Err] and the files written so far; the file system is left to [Generator.v] *)
Record jstate := mkJS { js_imports : list string; js_timestamp : bool; js_instant : bool; js_util : bool; js_err : bool; js_files : list jfile }.
Definition happen (st : jstate) (e : jevent) : jstate :=
  match e with
  | JImport r => mkJS (add_import (js_imports st) r) (js_timestamp st) (js_instant st) (js_util st) (js_err st) (js_files st)
  | JTimestamp => mkJS (js_imports st) true (js_instant st) (js_util st) (js_err st) (js_files st)
  | JInstant => mkJS (js_imports st) (js_timestamp st) true (js_util st) (js_err st) (js_files st)
  | JUtil => mkJS (js_imports st) (js_timestamp st) (js_instant st) true (js_err st) (js_files st)
  | JError => mkJS (js_imports st) (js_timestamp st) (js_instant st) (js_util st) true (js_files st)
  end.
Definition happens (st : jstate) (es : list jevent) : jstate := fold_left happen es st.
Definition sort_imports (st : jstate) : jstate :=
  mkJS (sort_strings (js_imports st)) (js_timestamp st) (js_instant st) (js_util st) (js_err st) (js_files st).
(** export_java.go:159-173 *)
Definition java_file (name content pkg : string) : jfile :=
  mkJF pkg name (jo_header o +++ (if pkg =?s "" then "" else "package " +++ pkg +++ ";" +++ nl) +++ content).
Definition write_java (name content pkg : string) (st : jstate) : jstate :=
  if js_err st then st
  else mkJS (js_imports st) (js_timestamp st) (js_instant st) (js_util st) false (js_files st ++ [java_file name content pkg]).

(** export_java.go:192-225; the text of a class is never empty *)
Definition class_piece (ts : typespec) (cls : string) (exceptions : list string) : option piece :=
  let t := ts_type ts in
  if t =?s "Struct" then Some (create_struct ts cls "" exceptions)
  else if t =?s "UnitValue" then Some (create_unit ts cls)
  else if t =?s "Enum" then Some (Ok (create_enum (ts_elements ts) cls))
  else if t =?s "Union" then Some (create_union (ts_variants ts) cls)
  else None.
Definition import_lines (imports : list string) : string :=
  match imports with
  | [] => ""
  | _ => String.concat "" (map (fun p => "import " +++ p +++ ";" +++ nl) imports) +++ nl
  end.
Definition create_pojo (ts : typespec) (cls comment : string) (exceptions : list string) (st : jstate) : result unit jstate :=
  if js_err st then Ok st
  else match class_piece ts cls exceptions with
  | None => Ok st
  | Some p =>
      '(s, e) <- p ;;
      let st1 := happens st e in
      if js_err st1 then Ok st1
      else
        let st2 := match js_imports st1 with [] => st1 | _ => sort_imports st1 end in
        Ok (write_java cls (import_lines (js_imports st2) +++ (if comment =?s "" then "" else format_comment "" "// " comment 100 false) +++ s)
              (jo_model_package o) st2)
  end.
(** export_java.go:187-190 *)
Definition create_pojo_from_def (exceptions : list string) (td : typedef) (st : jstate) : result unit jstate :=
  cls <- go_capitalize (td_name td) ;; create_pojo (td_spec td) cls (td_comment td) exceptions st.

(** java_server.go:55-64: the keys of the map *)
Fixpoint exception_types (xs : list exceptionspec) (st : jstate) : result unit (list string * jstate) :=
  match xs with
  | [] => Ok ([], st)
  | x :: r =>
      n <- type_name fuel None (xc_type x) true ;;
      '(l, st') <- exception_types r (happens st (jn_events n)) ;; Ok (jn_text n :: l, st')
  end.

(** java_server.go:459-475 *)
Definition body_input (p : paramspec) : bool := (ps_query p =?s "") && (ps_header p =?s "") && negb (ps_path p).
Definition param_info (p : paramspec) : string * string := (fd_name (ps_field p), ts_type (fd_spec (ps_field p))).
Definition action_info (h : httpdef) : result unit (string * string) :=
  if str_mem (h_method h) ["POST"; "PUT"] then
    Ok (match find body_input (h_inputs h) with Some p => param_info p | None => ("anonymous", "Object") end)
  else match h_expected h with
  | None => Panic
  | Some x => Ok (match find (fun p => ps_header p =?s "") (xp_outputs x) with Some p => param_info p | None => ("anonymous", "Object") end)
  end.
(** java_server.go:477-487; strings.ToLower on bytes *)
Definition action_name (h : httpdef) : result unit string :=
  match h_name h with
  | EmptyString => '(_, t) <- action_info h ;; Ok (to_lower (h_method h) +++ t)
  | n => go_uncapitalize n
  end.
(** java_server.go:489-495 *)
Definition request_type (n : string) : result unit string := c <- go_capitalize n ;; Ok (c +++ "Request").
Definition response_type (n : string) : result unit string := c <- go_capitalize n ;; Ok (c +++ "Response").
(** java_model.go:49-54 *)
Definition handler_sig (h : httpdef) : result unit string :=
  n <- action_name h ;; res <- response_type n ;; req <- request_type n ;;
  Ok ("public " +++ res +++ " " +++ n +++ "(" +++ req +++ " req)").
Fixpoint handler_sigs (hs : list httpdef) : result unit string :=
  match hs with
  | [] => Ok ""
  | h :: r => s <- handler_sig h ;; rest <- handler_sigs r ;; Ok (nl +++ "    " +++ s +++ ";" +++ nl +++ rest)
  end.
(** java_model.go:69-75 *)
Definition interface_text (sigs : string) : string := nl +++ "public interface " +++ jo_name o +++ " {" +++ nl +++ sigs +++ nl +++ "}" +++ nl.
(** export_java.go:175-183 with generator.go:81-100: a panic of a function of the template comes out as an error *)
Definition from_template (name : string) (content : result unit string) (pkg : string) (st : jstate) : result unit jstate :=
  if js_err st then Ok st
  else match content with
  | Ok s => Ok (write_java name s pkg st)
  | OutOfFuel => OutOfFuel
  | _ => Ok (happen st JError)
  end.
(** java_model.go:33-41; the name of the entity is not used here *)
Definition entity_type (h : httpdef) : result unit (string * string * list jevent) :=
  match h_expected h with
  | None => Panic
  | Some x =>
      match find (fun p => ps_header p =?s "") (xp_outputs x) with
      | None => Ok ("", "void", [])
      | Some p => n <- type_name fuel None (ts_type (fd_spec (ps_field p))) true ;; Ok (fd_name (ps_field p), jn_text n, jn_events n)
      end
  end.
Definition struct_of (fields : list fielddef) : typespec :=
  mkTS "Struct" "" None None None fields [] None None "" "" [] "" "" "".
(** java_server.go:416-428, 440-457 *)
Definition create_request (h : httpdef) (st : jstate) : result unit jstate :=
  if js_err st then Ok st
  else n <- action_name h ;; cls <- request_type n ;; create_pojo (struct_of (map ps_field (h_inputs h))) cls "" [] st.
Definition create_response (h : httpdef) (st : jstate) : result unit jstate :=
  if js_err st then Ok st
  else
    n <- action_name h ;; cls <- response_type n ;;
    match h_expected h with
    | None => Panic
    | Some x => create_pojo (struct_of (map ps_field (xp_outputs x))) cls "" [] st
    end.
Fixpoint through {A} (f : A -> jstate -> result unit jstate) (l : list A) (st : jstate) : result unit jstate :=
  match l with [] => Ok st | x :: r => st' <- f x st ;; through f r st' end.
(** java_model.go:43-67 *)
Definition create_action (h : httpdef) (st : jstate) : result unit jstate :=
  st1 <- create_request h st ;;
  st2 <- create_response h st1 ;;
  '(_, t, e) <- entity_type h ;;
  let st3 := happens st2 e in Ok (if t =?s "String" then happen st3 JUtil else st3).
Definition create_interface (st : jstate) : result unit jstate :=
  if js_err st then Ok st
  else if jo_name o =?s "" then Ok st
  else
    let hs := sc_http (m_schema m) in
    st1 <- from_template (jo_name o) (sigs <- handler_sigs hs ;; Ok (interface_text sigs)) (jo_model_package o) st ;;
    through create_action hs st1.
(** java_model.go:77-126 *)
Definition exception_text : string := join nl [
    "";
    "import com.fasterxml.jackson.databind.annotation.JsonSerialize;";
    "import com.fasterxml.jackson.databind.annotation.JsonDeserialize;";
    "import com.fasterxml.jackson.core.JsonParser;";
    "import com.fasterxml.jackson.databind.DeserializationContext;";
    "import com.fasterxml.jackson.databind.JsonSerializer;";
    "import com.fasterxml.jackson.databind.JsonDeserializer;";
    "import com.fasterxml.jackson.core.JsonGenerator;";
    "import com.fasterxml.jackson.databind.SerializerProvider;";
    "import com.fasterxml.jackson.core.JsonProcessingException;";
    "import java.io.IOException;";
    "";
    "@JsonSerialize(using = ServiceException.JSONSerializer.class)";
    "@JsonDeserialize(using = ServiceException.JSONDeserializer.class)";
    "public class ServiceException extends RuntimeException {";
    "    public Object entity;";
    "";
    "    public ServiceException() { super(); }";
    "    public ServiceException(String message) { super(message); }";
    "    public ServiceException(String message, Throwable cause) { super(message, cause); }";
    "    public ServiceException(Throwable cause) { super(cause); }";
    "";
    "    public ServiceException entity(Object entity) { this.entity = entity; return this; }";
    "";
    "    public static class ErrorObject {";
    "        public String error;";
    "        public ErrorObject(String error) { this.error = error; }";
    "    }";
    "";
    "    public static class JSONSerializer extends JsonSerializer<ServiceException> {";
    "        @Override";
    "        public void serialize(ServiceException value, JsonGenerator jgen, SerializerProvider provider) throws IOException, JsonProcessingException {";
    "            Object tmp = value.entity;";
    "            if (tmp == null) {";
    "                tmp = new ErrorObject(value.getMessage());";
    "            }";
    "            jgen.writeObject(tmp);";
    "        }";
    "    }";
    "";
    "    public static class JSONDeserializer extends JsonDeserializer<ServiceException> {";
    "        @Override";
    "        public ServiceException deserialize(JsonParser jp, DeserializationContext ctxt) throws IOException, JsonProcessingException {";
    "            ErrorObject tmp = jp.readValueAs(ErrorObject.class);";
    "            return new ServiceException(tmp.error);";
    "        }";
    "    }";
    "";
    "}";
    ""].

(** java_util.go:15-120 *)
Definition util_text : string := join nl [
    "";
    "import com.fasterxml.jackson.annotation.JsonInclude;";
    "import com.fasterxml.jackson.annotation.JsonInclude.Include;";
    "import com.fasterxml.jackson.databind.DeserializationContext;";
    "import com.fasterxml.jackson.databind.ObjectMapper;";
    "import com.fasterxml.jackson.databind.SerializationFeature;";
    "import com.fasterxml.jackson.databind.DeserializationFeature;";
    "import com.fasterxml.jackson.databind.JsonSerializer;";
    "import com.fasterxml.jackson.databind.JsonDeserializer;";
    "import com.fasterxml.jackson.core.JsonParser;";
    "import com.fasterxml.jackson.core.JsonGenerator;";
    "import com.fasterxml.jackson.core.JsonProcessingException;";
    "import com.fasterxml.jackson.databind.SerializerProvider;";
    "import javax.ws.rs.ext.ParamConverter;";
    "import javax.ws.rs.ext.ParamConverterProvider;";
    "import javax.ws.rs.ext.Provider;";
    "import java.lang.annotation.Annotation;";
    "import java.lang.reflect.Type;";
    "import java.time.Instant;";
    "import java.util.UUID;";
    "import java.io.IOException;";
    "";
    "public class Util {";
    "";
    "    static final ObjectMapper om = initMapper();";
    "    static ObjectMapper initMapper() {";
    "        ObjectMapper om = new ObjectMapper();";
    "        om.setDefaultPropertyInclusion(JsonInclude.Value.construct(Include.ALWAYS, Include.NON_NULL));";
    "        om.configure(DeserializationFeature.FAIL_ON_UNKNOWN_PROPERTIES, false);";
    "        return om;";
    "    }";
    "";
    "    public static <T> T fromJson(String jsonData, Class<T> dataType) {";
    "        try {";
    "            return om.readerFor(dataType).readValue(jsonData);";
    "        } catch (Exception e) {";
    "            e.printStackTrace();";
    "            return null;";
    "        }";
    "    }";
    "";
    "    public static String toJson(Object o) {";
    "        try {";
    "            Class<?> cls = (o == null)? Object.class : o.getClass();";
    "            return om.writerWithView(cls).writeValueAsString(o);";
    "        } catch (Exception e) {";
    "            e.printStackTrace();";
    "            return ""?"";";
    "        }";
    "    }";
    "";
    "    public static String pretty(Object o) {";
    "        try {";
    "            Class<?> cls = (o == null)? Object.class : o.getClass();";
    "            return om.writerWithView(cls).with(SerializationFeature.INDENT_OUTPUT).writeValueAsString(o);";
    "        } catch (Exception e) {";
    "            e.printStackTrace();";
    "            return ""?"";";
    "        }";
    "    }";
    "";
    "    public static class InstantSerializer extends JsonSerializer<Instant> {";
    "        @Override";
    "        public void serialize(Instant value, JsonGenerator jgen, SerializerProvider provider) throws IOException, JsonProcessingException {";
    "            jgen.writeString(value.toString());";
    "        }";
    "    }";
    "";
    "    public static class InstantDeserializer extends JsonDeserializer<Instant> {";
    "        @Override";
    "        public Instant deserialize(JsonParser jp, DeserializationContext ctxt) throws IOException, JsonProcessingException {";
    "            String s = jp.getText();";
    "            return Instant.parse(s);";
    "        }";
    "    }";
    "";
    "    @Provider";
    "    public static class InstantConverterProvider implements ParamConverterProvider {";
    "        @Override";
    "        @SuppressWarnings(""unchecked"")";
    "        public <T> ParamConverter<T> getConverter(Class<T> rawType, Type genericType, Annotation[] annotations) {";
    "            if (rawType.equals(Instant.class))";
    "                return (ParamConverter<T>) new InstantConverter();";
    "            return null;";
    "        }";
    "    }";
    "";
    "    public static class InstantConverter implements ParamConverter<Instant> {";
    "        @Override";
    "        public Instant fromString(String value) {";
    "            if (value != null) {";
    "                return Instant.parse(value);";
    "            }";
    "            return null;";
    "        }";
    "        @Override";
    "        public String toString(Instant value) {";
    "            return value.toString();";
    "        }";
    "    }";
    "";
    "    public static <T> String[] validate(T t) {";
    "        return new String[0]; //TO DO";
    "    }";
    "}";
    ""].

(** java_timestamp.go:57-131 *)
Definition timestamp_text : string := join nl [
    "";
    "import java.time.Instant;";
    "import com.fasterxml.jackson.core.JsonParser;";
    "import com.fasterxml.jackson.databind.JsonSerializer;";
    "import com.fasterxml.jackson.databind.annotation.JsonSerialize;";
    "import com.fasterxml.jackson.databind.DeserializationContext;";
    "import com.fasterxml.jackson.databind.JsonDeserializer;";
    "import com.fasterxml.jackson.databind.annotation.JsonDeserialize;";
    "import com.fasterxml.jackson.core.JsonGenerator;";
    "import com.fasterxml.jackson.databind.SerializerProvider;";
    "import com.fasterxml.jackson.core.JsonProcessingException;";
    "import java.io.IOException;";
    "";
    "@JsonSerialize(using = Timestamp.Serializer.class)";
    "@JsonDeserialize(using = Timestamp.Deserializer.class)";
    "public class Timestamp implements Comparable<Timestamp> {";
    "    private String repr;";
    "";
    "    public static Timestamp now() {";
    "        return new Timestamp(Instant.now());";
    "    }";
    "";
    "    public Timestamp(String repr) {";
    "        this.repr = repr;";
    "    }";
    "";
    "    public Timestamp(Instant instant) {";
    "        this.repr = instant.toString();";
    "    }";
    "    ";
    "    public String toString() {";
    "        return repr;";
    "    }";
    "";
    "    public int compareTo(Timestamp another) {";
    "        if (another == null) {";
    "            return 1;";
    "        }";
    "        return this.asInstant().compareTo(another.asInstant());";
    "    }";
    "";
    "    public Instant asInstant() {";
    "        return Instant.parse(repr);";
    "    }";
    "";
    "    public static class Serializer extends JsonSerializer<Timestamp> {";
    "        @Override";
    "        public void serialize(Timestamp value, JsonGenerator jgen, SerializerProvider provider) throws IOException, JsonProcessingException {";
    "            jgen.writeString(value.repr);";
    "        }";
    "    }";
    "    public static class Deserializer extends JsonDeserializer<Timestamp> {";
    "        @Override";
    "        public Timestamp deserialize(JsonParser jp, DeserializationContext ctxt) throws IOException, JsonProcessingException {";
    "            String s = jp.getText();";
    "            return new Timestamp(s);";
    "        }";
    "    }";
    "";
    "    public static class InstantSerializer extends JsonSerializer<Instant> {";
    "        @Override";
    "        public void serialize(Instant value, JsonGenerator jgen, SerializerProvider provider) throws IOException, JsonProcessingException {";
    "            jgen.writeString(value.toString());";
    "        }";
    "    }";
    "    public static class InstantDeserializer extends JsonDeserializer<Instant> {";
    "        @Override";
    "        public Instant deserialize(JsonParser jp, DeserializationContext ctxt) throws IOException, JsonProcessingException {";
    "            String s = jp.getText();";
    "            return Instant.parse(s);";
    "        }";
    "    }";
    "";
    "}";
    ""].

(** java_model.go:9-31 *)
Definition create_model (st : jstate) : result unit jstate :=
  let sch := m_schema m in
  '(exceptions, st0) <- (if jo_service_exception o then Ok ([], st) else exception_types (flat_map h_exceptions (sc_http sch)) st) ;;
  st1 <- through (create_pojo_from_def exceptions) (sc_types sch) st0 ;;
  st2 <- create_interface st1 ;;
  let st3 := if js_timestamp st2 then write_java "Timestamp" timestamp_text (jo_package o) st2
             else if js_instant st2 then happen st2 JUtil else st2 in
  let st4 := if js_util st3 then write_java "Util" util_text (jo_model_package o) st3 else st3 in
  if jo_service_exception o then from_template "ServiceException" (Ok exception_text) (jo_model_package o) st4 else Ok st4.
Definition start : jstate := mkJS [] false false false false [].
End Java.
