(** What a GraphQL document is as a text (C127): the lexical grammar and the definitions of the GraphQL language (June 2018,
    sections 2.1 and 3).  Uses the data types of GraphqlImport.v, none of its functions. *)
From Verif Require Import GoStr Outcome Value Schema SpecModel SpecMisc SpecPV GraphqlImport.

(** ** Tokens *)
Inductive gtok := TkName (n : string) | TkPunct (c : ascii).
Definition gname_start (c : ascii) : Prop :=
  (65 <= nat_of_ascii c <= 90 \/ 97 <= nat_of_ascii c <= 122 \/ c = "_"%char)%nat.
Definition gname_char (c : ascii) : Prop := gname_start c \/ (48 <= nat_of_ascii c <= 57)%nat.
Inductive all_chars (P : ascii -> Prop) : string -> Prop :=
| ac_nil : all_chars P ""
| ac_cons c s : P c -> all_chars P s -> all_chars P (String c s).
Definition gname (n : string) : Prop := exists c r, n = String c r /\ gname_start c /\ all_chars gname_char r.
Definition gignored : list ascii := [" "; "009"; "010"; "013"; ","]%char.
Definition gpuncts : list ascii := ["!"; "$"; "("; ")"; ":"; "="; "@"; "["; "]"; "{"; "|"; "}"; "&"]%char.
(** the text after a name, after a comment *)
Definition ends_name (s : string) : Prop := forall c r, s = String c r -> ~ gname_char c.
Definition ends_line (s : string) : Prop := forall c r, s = String c r -> c = "010"%char.
(** the tokens of a text; numbers, strings and dots are no part of what is written here *)
Inductive lexes : string -> list gtok -> Prop :=
| lx_end : lexes "" []
| lx_skip c s ts : In c gignored -> lexes s ts -> lexes (String c s) ts
| lx_comment b s ts : no_char "010" b -> ends_line s -> lexes s ts -> lexes (String "#" (b +++ s)) ts
| lx_punct c s ts : In c gpuncts -> lexes s ts -> lexes (String c s) (TkPunct c :: ts)
| lx_name n s ts : gname n -> ends_name s -> lexes s ts -> lexes (n +++ s) (TkName n :: ts).

(** ** Definitions *)
Inductive type_tokens : gtype -> list gtok -> Prop :=
| tt_name n : type_tokens (GNamed n) [TkName n]
| tt_list t l : type_tokens t l -> type_tokens (GList t) (TkPunct "[" :: l ++ [TkPunct "]"])
| tt_some t l : type_tokens t l -> type_tokens (GNonNull t) (l ++ [TkPunct "!"]).
Inductive fields_tokens : list gfield -> list gtok -> Prop :=
| ft_nil : fields_tokens [] []
| ft_field f t l fs ls : type_tokens t l -> fields_tokens fs ls ->
    fields_tokens (mkGField f None t :: fs) (TkName f :: TkPunct ":" :: l ++ ls).
Inductive values_tokens : list (string * option string) -> list gtok -> Prop :=
| vt_nil : values_tokens [] []
| vt_value v vs ls : values_tokens vs ls -> values_tokens ((v, None) :: vs) (TkName v :: ls).
Inductive members_tokens : list string -> list gtok -> Prop :=
| mt_one n : members_tokens [n] [TkName n]
| mt_more n ns ls : members_tokens ns ls -> members_tokens (n :: ns) (TkName n :: TkPunct "|" :: ls).
(** a definition has at least one field, value or member *)
Inductive defn_tokens : gdefn -> list gtok -> Prop :=
| dt_object n fs ls : fs <> [] -> fields_tokens fs ls ->
    defn_tokens (GObject n None fs) (TkName "type" :: TkName n :: TkPunct "{" :: ls ++ [TkPunct "}"])
| dt_enum n vs ls : vs <> [] -> (forall v d, In (v, d) vs -> ~ In v ["true"; "false"; "null"]) -> values_tokens vs ls ->
    defn_tokens (GEnum n None vs) (TkName "enum" :: TkName n :: TkPunct "{" :: ls ++ [TkPunct "}"])
| dt_union n ns ls : members_tokens ns ls -> defn_tokens (GUnion n None ns) (TkName "union" :: TkName n :: TkPunct "=" :: ls)
| dt_scalar n : defn_tokens (GScalar n) [TkName "scalar"; TkName n].
Inductive doc_tokens : list gdefn -> list gtok -> Prop :=
| dc_nil : doc_tokens [] []
| dc_cons d l ds ls : defn_tokens d l -> doc_tokens ds ls -> doc_tokens (d :: ds) (l ++ ls).
(** a text denotes a document *)
Definition denotes (s : string) (doc : list gdefn) : Prop := exists ts, lexes s ts /\ doc_tokens doc ts.

(** ** Models whose document is one *)
Definition written_fully (sch : schema) : Prop := forall td, In td (sc_types sch) ->
  let ts := td_spec td in
  (ts_type ts = "Struct" -> ts_fields ts <> []) /\ (ts_type ts = "Enum" -> ts_elements ts <> []) /\ (ts_type ts = "Union" -> ts_variants ts <> [])
  /\ (ts_type ts = "Enum" -> forall e, In e (ts_elements ts) -> ~ In (ee_symbol e) ["true"; "false"; "null"])
  /\ (ts_type ts = "Struct" -> forall f, In f (ts_fields ts) -> no_char "010" (fd_comment f)).
Definition named_plainly (conf : string -> string) (sch : schema) : Prop :=
  (forall n, conf n = "" \/ gname (conf n))
  /\ forall td, In td (sc_types sch) -> gname (td_name td)
     /\ (ts_type (td_spec td) = "Array" -> gname (ts_items (td_spec td)))
     /\ (ts_type (td_spec td) = "Enum" -> forall e, In e (ts_elements (td_spec td)) -> gname (ee_symbol e))
     /\ (ts_type (td_spec td) = "Union" -> forall v, In v (ts_variants (td_spec td)) -> gname (ts_type (uv_spec v)))
     /\ (ts_type (td_spec td) = "Struct" -> forall f, In f (ts_fields (td_spec td)) -> gname (fd_name f) /\ gname (ts_type (fd_spec f))
           /\ (ts_type (fd_spec f) = "Array" -> gname (ts_items (fd_spec f)))).
(** the bodies are not empty and the symbols of enums are no other words *)
Definition bodies_full (sch : schema) : Prop := forall td, In td (sc_types sch) ->
  (ts_type (td_spec td) = "Struct" -> ts_fields (td_spec td) <> [])
  /\ (ts_type (td_spec td) = "Enum" -> ts_elements (td_spec td) <> [] /\ forall e, In e (ts_elements (td_spec td)) -> ~ In (ee_symbol e) ["true"; "false"; "null"]).
Definition lines_plain (sch : schema) : Prop := forall td, In td (sc_types sch) ->
  (ts_type (td_spec td) = "Union" -> ts_variants (td_spec td) <> [])
  /\ (ts_type (td_spec td) = "Struct" -> forall f, In f (ts_fields (td_spec td)) -> no_char "010" (fd_comment f)).
