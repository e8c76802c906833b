(** The grammar of option lists and what they record.  Of the model only the record [options] is used. *)
From Verif Require Import GoStr Outcome Value Schema Scalars Scan SpecText.
From Verif Require Parser.

(** an option as written *)
Inductive wopt :=
| OMin (d : decimal) | OMax (d : decimal) | OMinsize (z : Z) | OMaxsize (z : Z) | OPattern (s : string)
| OValues (l : list string) | ORequired | ODefault (v : value) | OAction (s : string) | OResource (s : string)
| OReference (s : string) | OHeader (s : string) | OName (s : string) | OAnno (n v : string).

(** the strings between the brackets of [values=\[...\]] *)
Inductive strings : list token -> list string -> Prop :=
| strings_nil : strings [] []
| strings_skip t ts l : blank t -> strings ts l -> strings (t :: ts) l
| strings_cons s ts l : strings ts l -> strings (mkTok STRING s :: ts) (s :: l).

(** the decimal digits of an integer, perhaps with a sign *)
Definition digit (c : ascii) (d : Z) : Prop := exists n, (n < 10)%nat /\ c = ascii_of_nat (48 + n) /\ d = Z.of_nat n.
Inductive digits : string -> Z -> Prop :=
| digits_one c d : digit c d -> digits (String c "") d
| digits_more s z c d : digits s z -> digit c d -> digits (s +++ String c "") (10 * z + d).
Inductive integer : string -> Z -> Prop :=
| int_plain s z : digits s z -> integer s z
| int_plus s z : digits s z -> integer (String "+" s) z
| int_minus s z : digits s z -> integer (String "-" s) (- z).
Definition int64 (s : string) (z : Z) : Prop := integer s z /\ (- 2 ^ 63 <= z < 2 ^ 63)%Z.

Section O.
Variable X : ext.
Variable allowed : list string.
(** the name of the option, in any case of letters *)
Definition names (w kw : string) : Prop := to_lower w = kw /\ In kw allowed.
Definition eq_tok (t : token) : Prop := of_type EQUALS t.
Inductive opt_text : list token -> wopt -> Prop :=
| ot_min w e raw d : names w "min" -> eq_tok e -> x_decimal X raw = Some d ->
    opt_text [word w; e; mkTok NUMBER raw] (OMin d)
| ot_max w e raw d : names w "max" -> eq_tok e -> x_decimal X raw = Some d ->
    opt_text [word w; e; mkTok NUMBER raw] (OMax d)
| ot_minsize w e raw z : names w "minsize" -> eq_tok e -> int64 raw z ->
    opt_text [word w; e; mkTok NUMBER raw] (OMinsize z)
| ot_maxsize w e raw z : names w "maxsize" -> eq_tok e -> int64 raw z ->
    opt_text [word w; e; mkTok NUMBER raw] (OMaxsize z)
| ot_pattern w e s : names w "pattern" -> eq_tok e -> opt_text [word w; e; mkTok STRING s] (OPattern s)
| ot_values w e o c ts l : names w "values" -> eq_tok e -> of_type OPEN_BRACKET o -> of_type CLOSE_BRACKET c ->
    strings ts l -> opt_text (word w :: e :: o :: ts ++ [c]) (OValues l)
| ot_required w : names w "required" -> opt_text [word w] ORequired
| ot_default w e ts v : names w "default" -> eq_tok e -> literal X ts v -> opt_text (word w :: e :: ts) (ODefault v)
| ot_action w e s : names w "action" \/ names w "operation" -> eq_tok e -> opt_text [word w; e; word s] (OAction s)
| ot_resource w e s : names w "resource" -> eq_tok e -> opt_text [word w; e; word s] (OResource s)
| ot_reference w e s : names w "reference" -> eq_tok e -> opt_text [word w; e; word s] (OReference s)
| ot_header w e s : names w "header" -> eq_tok e -> opt_text [word w; e; mkTok STRING s] (OHeader s)
| ot_name w e s : names w "name" -> eq_tok e -> opt_text [word w; e; word s] (OName s)
| ot_flag w : has_prefix "x_" (to_lower w) = true -> opt_text [word w] (OAnno w "")
| ot_anno w e s : has_prefix "x_" (to_lower w) = true -> eq_tok e ->
    opt_text [word w; e; mkTok STRING s] (OAnno w s).
(** commas between options are optional *)
Inductive opt_items : list token -> list wopt -> Prop :=
| oi_nil : opt_items [] []
| oi_comma t ts l : of_type COMMA t -> opt_items ts l -> opt_items (t :: ts) l
| oi_cons a o ts l : opt_text a o -> opt_items ts l -> opt_items (a ++ ts) (o :: l).
(** an option list in parentheses, or none; [opt_part l os r]: the tokens [l] start with the options [os] and go on with [r] *)
Inductive opt_part : list token -> list wopt -> list token -> Prop :=
| op_none l : (forall t r, l = t :: r -> ~ of_type OPEN_PAREN t) -> opt_part l [] l
| op_list o c ts os r : of_type OPEN_PAREN o -> of_type CLOSE_PAREN c -> opt_items ts os ->
    opt_part (o :: ts ++ c :: r) os r.
End O.

(** the last of the options that [f] picks *)
Fixpoint last_of {A} (f : wopt -> option A) (l : list wopt) : option A :=
  match l with
  | [] => None
  | o :: r => match last_of f r with Some a => Some a | None => f o end
  end.
Definition or_empty (o : option string) : string := match o with Some s => s | None => "" end.
Definition or_nil (o : option value) : value := match o with Some s => s | None => VNil end.

(** What is recorded: of every option the last value, of every annotation too. *)
Import Parser.
Definition recorded (os : list wopt) (o : options) : Prop :=
  (o_required o = true <-> In ORequired os)
  /\ o_default o = or_nil (last_of (fun w => match w with ODefault v => Some v | _ => None end) os)
  /\ o_pattern o = or_empty (last_of (fun w => match w with OPattern v => Some v | _ => None end) os)
  /\ o_values o = match last_of (fun w => match w with OValues v => Some v | _ => None end) os with
                  | Some [] => None | v => v end
  /\ o_minsize o = last_of (fun w => match w with OMinsize v => Some v | _ => None end) os
  /\ o_maxsize o = last_of (fun w => match w with OMaxsize v => Some v | _ => None end) os
  /\ o_min o = last_of (fun w => match w with OMin v => Some v | _ => None end) os
  /\ o_max o = last_of (fun w => match w with OMax v => Some v | _ => None end) os
  /\ o_action o = or_empty (last_of (fun w => match w with OAction v => Some v | _ => None end) os)
  /\ o_resource o = or_empty (last_of (fun w => match w with OResource v => Some v | _ => None end) os)
  /\ o_reference o = or_empty (last_of (fun w => match w with OReference v => Some v | _ => None end) os)
  /\ o_header o = or_empty (last_of (fun w => match w with OHeader v => Some v | _ => None end) os)
  /\ o_name o = or_empty (last_of (fun w => match w with OName v => Some v | _ => None end) os)
  /\ (forall n, assoc n (o_annos o) = last_of (fun w => match w with OAnno m v => if string_dec n m then Some v else None | _ => None end) os).

(** ** Positions *)
(** the options of the language, by position *)
Definition type_allows (t : string) : list string :=
  if str_mem t ["Int8"; "Int16"; "Int32"; "Int64"; "Float32"; "Float64"; "Decimal"] then ["min"; "max"]
  else if str_mem t ["Bytes"; "Array"; "Map"] then ["minsize"; "maxsize"]
  else if t =?s "String" then ["minsize"; "maxsize"; "pattern"; "values"; "reference"]
  else if t =?s "UUID" then ["reference"]
  else [].
Definition field_allows (t : string) : list string := "required" :: "default" :: type_allows t.
Definition param_allows : list string := ["header"; "default"; "required"].
Definition action_allows : list string := ["action"; "operation"; "resource"].
Definition example_allows : list string := ["name"].

(** the end of a statement, after which [r] is left: semicolons and line comments, then a line end or the end of the text *)
Inductive statement_end : list token -> list token -> Prop :=
| se_eof : statement_end [] []
| se_nl t r : of_type NEWLINE t -> statement_end (t :: r) r
| se_skip t l r : of_type SEMICOLON t \/ of_type LINE_COMMENT t -> statement_end l r -> statement_end (t :: l) r.
(** the text of a type reference of kind [t]: [l] starts with it and goes on with [r] *)
Inductive type_head : string -> list token -> list token -> Prop :=
| th_plain t r : ~ In t ["Struct"; "Enum"; "Union"] -> (forall x r', r = x :: r' -> ~ of_type OPEN_ANGLE x) ->
    type_head t (word t :: r) r
| th_array w i o c r : In w ["Array"; "List"] -> of_type OPEN_ANGLE o -> of_type CLOSE_ANGLE c ->
    type_head "Array" (word w :: o :: word i :: c :: r) r
| th_map k i o m c r : of_type OPEN_ANGLE o -> of_type COMMA m -> of_type CLOSE_ANGLE c ->
    type_head "Map" (word "Map" :: o :: word k :: m :: word i :: c :: r) r.
(** the kinds of types that may have options after their reference *)
Definition option_kinds : list string :=
  ["Any"; "Bool"; "Timestamp"; "Int8"; "Int16"; "Int32"; "Int64"; "Float32"; "Float64"; "Decimal"; "Bytes"; "String"; "UUID"; "Array"; "Map"].
Definition kept_in (o : options) (ts : typespec) : Prop :=
  ts_pattern ts = o_pattern o /\ ts_values ts = o_values o /\ ts_minsize ts = o_minsize o /\ ts_maxsize ts = o_maxsize o
  /\ ts_min ts = o_min o /\ ts_max ts = o_max o /\ ts_reference ts = o_reference o.
Definition uuid_pattern : string := "([a-f0-9]{8}(-[a-f0-9]{4}){4}[a-f0-9]{8})".
(** what a type definition with options ends up as: a string type with the pattern of UUIDs becomes a UUID *)
Definition made (t : string) (o : options) (td : typedef) : Prop :=
  (t = "String" /\ o_pattern o = uuid_pattern /\ ts_type (td_spec td) = "UUID" /\ ts_pattern (td_spec td) = "")
  \/ (ts_type (td_spec td) = t /\ kept_in o (td_spec td)).
(** the names between the angle brackets of a union *)
Inductive variants : list token -> list string -> Prop :=
| vs_nil : variants [] []
| vs_comma t ts l : of_type COMMA t -> variants ts l -> variants (t :: ts) l
| vs_name s ts l : variants ts l -> variants (word s :: ts) (s :: l).
