(** The grammar of literals and option lists, on tokens.  Block comments are left out: they never matter. *)
From Verif Require Import GoStr Outcome Value Schema Scalars Scan.

(** ** Literals *)
Section L.
Variable X : ext.
Definition of_type (t : ttype) (tok : token) : Prop := tk_type tok = t.
Definition word (s : string) : token := mkTok SYMBOL s.
(** the entries of a Go map after the assignments [l], in order *)
Definition assigned {A} (l : list (string * A)) : list (string * A) :=
  fold_left (fun m kv => assoc_set (fst kv) (snd kv) m) l [].

(** All the texts that are literals.  Commas and line ends between the items of an array are
    optional; between the entries of an object everything is skipped that is not a string, a
    word or the closing brace. *)
Inductive literal : list token -> value -> Prop :=
| lit_true : literal [word "true"] (VBool true)
| lit_false : literal [word "false"] (VBool false)
| lit_null : literal [word "null"] VNil
| lit_string raw s : unquote raw = Some s -> literal [mkTok STRING raw] (VPStr s)
| lit_number raw d : x_decimal X raw = Some d -> literal [mkTok NUMBER raw] (VDec d)
| lit_array o c ts l : of_type OPEN_BRACKET o -> of_type CLOSE_BRACKET c -> items ts l ->
    literal (o :: ts ++ [c]) (VArr l)
| lit_object o c ts l : of_type OPEN_BRACE o -> of_type CLOSE_BRACE c -> entries ts l ->
    literal (o :: ts ++ [c]) (VMap (assigned l))
with items : list token -> list value -> Prop :=
| items_nil : items [] []
| items_skip t ts l : of_type NEWLINE t \/ of_type COMMA t -> items ts l -> items (t :: ts) l
| items_cons a v ts l : literal a v -> items ts l -> items (a ++ ts) (v :: l)
with entries : list token -> list (string * value) -> Prop :=
| entries_nil : entries [] []
| entries_skip t ts l : ~ of_type STRING t -> ~ of_type SYMBOL t -> ~ of_type CLOSE_BRACE t ->
    entries ts l -> entries (t :: ts) l
| entries_cons raw k c a v ts l : unquote raw = Some k -> of_type COLON c -> literal a v -> entries ts l ->
    entries (mkTok STRING raw :: c :: a ++ ts) ((k, v) :: l).
End L.

(** ** JSON *)
Inductive json :=
| JNull | JBool (b : bool) | JString (s : string) | JNumber (raw : string) (d : decimal)
| JArray (l : list json) | JObject (l : list (string * json)).
(** the value the parser makes of it *)
Fixpoint json_value (j : json) : value :=
  match j with
  | JNull => VNil
  | JBool b => VBool b
  | JString s => VPStr s
  | JNumber _ d => VDec d
  | JArray l => VArr (map json_value l)
  | JObject l => VMap (map (fun kv => (fst kv, json_value (snd kv))) l)
  end.

(** The ways JSON has to write a text between quotes.  Two are left out: the escape \/ and two escapes \uXXXX for the
    halves of one character.  strconv.Unquote refuses both. *)
Definition hex4 (n : nat) (a b : ascii) : Prop :=
  exists x y, hex_val a = Some x /\ hex_val b = Some y /\ n = 16 * x + y.
Inductive json_char (c : ascii) : string -> Prop :=
| jc_plain : 32 <= nat_of_ascii c -> c <> """"%char -> c <> "\"%char -> json_char c (String c "")
| jc_quote : c = """"%char -> json_char c ("\""")
| jc_backslash : c = "\"%char -> json_char c "\\"
| jc_b : nat_of_ascii c = 8 -> json_char c "\b"
| jc_f : nat_of_ascii c = 12 -> json_char c "\f"
| jc_n : nat_of_ascii c = 10 -> json_char c "\n"
| jc_r : nat_of_ascii c = 13 -> json_char c "\r"
| jc_t : nat_of_ascii c = 9 -> json_char c "\t"
| jc_u a b : nat_of_ascii c < 128 -> hex4 (nat_of_ascii c) a b ->
    json_char c (String "\" (String "u" (String "0" (String "0" (String a (String b ""))))))
.
(** the bytes of a character from U+0080 to U+FFFF *)
Definition byte (n : N) : string := String (ascii_of_N n) "".
Inductive utf8_bytes (n : N) : string -> Prop :=
| ub_two x y : (x < 32)%N -> (y < 64)%N -> n = (64 * x + y)%N -> (128 <= n)%N -> utf8_bytes n (byte (192 + x) +++ byte (128 + y))
| ub_three x y z : (x < 16)%N -> (y < 64)%N -> (z < 64)%N -> n = (4096 * x + 64 * y + z)%N -> (2048 <= n)%N -> ~ (55296 <= n < 57344)%N ->
    utf8_bytes n (byte (224 + x) +++ byte (128 + y) +++ byte (128 + z)).
Definition hex_four (n : N) (a b c d : ascii) : Prop :=
  exists x y z w, hex_val a = Some x /\ hex_val b = Some y /\ hex_val c = Some z /\ hex_val d = Some w
  /\ n = (4096 * N.of_nat x + 256 * N.of_nat y + 16 * N.of_nat z + N.of_nat w)%N.
Inductive json_text : string -> string -> Prop :=
| jt_nil : json_text "" ""
| jt_wide n a b c d t s r : hex_four n a b c d -> utf8_bytes n t -> json_text s r ->
    json_text (t +++ s) (String "\" (String "u" (String a (String b (String c (String d r))))))
| jt_cons c t s r : json_char c t -> json_text s r -> json_text (String c s) (t +++ r).

Section J.
Variable X : ext.
Definition blank (t : token) : Prop := of_type NEWLINE t \/ of_type COMMA t.
(** A value as JSON tokens; between the parts line ends and commas, as many as one likes. *)
Inductive writes : json -> list token -> Prop :=
| w_null : writes JNull [word "null"]
| w_true : writes (JBool true) [word "true"]
| w_false : writes (JBool false) [word "false"]
| w_string s raw : json_text s raw -> writes (JString s) [mkTok STRING raw]
| w_number raw d : x_decimal X raw = Some d -> writes (JNumber raw d) [mkTok NUMBER raw]
| w_array l ts o c : of_type OPEN_BRACKET o -> of_type CLOSE_BRACKET c -> writes_items l ts ->
    writes (JArray l) (o :: ts ++ [c])
| w_object l ts o c : of_type OPEN_BRACE o -> of_type CLOSE_BRACE c -> NoDup (map fst l) -> writes_entries l ts ->
    writes (JObject l) (o :: ts ++ [c])
with writes_items : list json -> list token -> Prop :=
| wi_nil bl : Forall blank bl -> writes_items [] bl
| wi_cons j l bl a ts : Forall blank bl -> writes j a -> writes_items l ts -> writes_items (j :: l) (bl ++ a ++ ts)
with writes_entries : list (string * json) -> list token -> Prop :=
| we_nil bl : Forall blank bl -> writes_entries [] bl
| we_cons k j l bl raw c a ts : Forall blank bl -> json_text k raw -> of_type COLON c -> writes j a ->
    writes_entries l ts -> writes_entries ((k, j) :: l) (bl ++ mkTok STRING raw :: c :: a ++ ts).
End J.

(** ** Includes *)
(** the same annotations, with x_include set to the name of the file *)
Definition marked_annos (f : string) (a a' : annos) : Prop :=
  forall k, assoc k a' = if string_dec k "x_include" then Some f else assoc k a.
Definition marked_type (f : string) (td td' : typedef) : Prop :=
  td_name td' = td_name td /\ td_comment td' = td_comment td /\ td_spec td' = td_spec td
  /\ marked_annos f (td_annos td) (td_annos td').
Definition marked_http (f : string) (h h' : httpdef) : Prop :=
  h_name h' = h_name h /\ h_resource h' = h_resource h /\ h_comment h' = h_comment h /\ h_method h' = h_method h
  /\ h_path h' = h_path h /\ h_inputs h' = h_inputs h /\ h_expected h' = h_expected h /\ h_exceptions h' = h_exceptions h
  /\ marked_annos f (h_annos h) (h_annos h').
Definition marked_op (f : string) (o o' : opdef) : Prop :=
  op_name o' = op_name o /\ op_comment o' = op_comment o /\ op_inputs o' = op_inputs o /\ op_outputs o' = op_outputs o
  /\ op_exceptions o' = op_exceptions o /\ marked_annos f (op_annos o) (op_annos o').
(** [sch'] is [sch] with the definitions of [inc] after its own *)
Definition extends_by (f : string) (sch inc sch' : schema) : Prop :=
  exists ts hs os,
    sc_types sch' = sc_types sch ++ ts /\ Forall2 (marked_type f) (sc_types inc) ts
    /\ sc_http sch' = sc_http sch ++ hs /\ Forall2 (marked_http f) (sc_http inc) hs
    /\ sc_operations sch' = sc_operations sch ++ os /\ Forall2 (marked_op f) (sc_operations inc) os
    /\ sc_examples sch' = sc_examples sch /\ sc_name sch' = sc_name sch /\ sc_namespace sch' = sc_namespace sch
    /\ sc_version sch' = sc_version sch /\ sc_base sch' = sc_base sch /\ sc_annos sch' = sc_annos sch.
Definition clash (sch inc : schema) : Prop :=
  exists td, In td (sc_types inc) /\ In (td_name td) (map td_name (sc_types sch)).
(** The types of a text come in segments: its own definitions, whose names are words of the text, and
    all the types of a file whose name stands in it; [reads f inc]: the file f is read as inc. *)
Definition segment (reads : string -> schema -> Prop) (toks : list token) (seg : list typedef) : Prop :=
  (exists td, seg = [td] /\ In (word "type") toks /\ In (word (td_name td)) toks)
  \/ (exists f inc, In (word "include") toks /\ In (mkTok STRING f) toks
        /\ reads f inc /\ Forall2 (marked_type f) (sc_types inc) seg).
