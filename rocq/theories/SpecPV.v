(** Specifications for the checks the SADL parser makes after reading a file. *)
From Verif Require Import GoStr Value Schema Scalars SpecTime SpecModel SpecMisc.

(** ** Path templates *)
Definition no_char (c : ascii) (s : string) : Prop := ~ exists a b, s = a +++ String c b.

(** literal text and variables in braces *)
Inductive template : string -> Prop :=
| tp_end a : no_char "{" a -> no_char "}" a -> template a
| tp_var a v r : no_char "{" a -> no_char "}" a -> no_char "{" v -> no_char "}" v -> no_char "/" v ->
    template r -> template (a +++ "{" +++ v +++ "}" +++ r).

(** [path ? query]: the split at the first question mark *)
Definition path_part (s a : string) : Prop :=
  no_char "?" a /\ (s = a \/ exists q, s = a +++ "?" +++ q).
Definition query_part (s q : string) : Prop :=
  exists a, no_char "?" a /\ s = a +++ "?" +++ q.

(** ** Where a parameter comes from *)
(** [q] is one of the pieces of a query string between ampersands, [before] those in front of it. *)
Inductive query_piece : string -> list string -> string -> Prop :=
| qp_last q : no_char "&" q -> query_piece q [] q
| qp_first q r : no_char "&" q -> query_piece (q +++ "&" +++ r) [] q
| qp_next x r before q : no_char "&" x -> query_piece r before q -> query_piece (x +++ "&" +++ r) (x :: before) q.
(** [k={name}], possibly followed by another [=...] that is ignored *)
Definition binds (name k q : string) : Prop :=
  no_char "=" k /\ no_char "=" name /\
  (q = k +++ "={" +++ name +++ "}" \/ exists junk, q = k +++ "={" +++ name +++ "}=" +++ junk).

Definition in_path (tmpl name : string) : Prop :=
  exists p, path_part tmpl p /\ exists a b, p = a +++ "{" +++ name +++ "}" +++ b.
(** the first piece of the query string that binds the name *)
Definition in_query (tmpl name k : string) : Prop :=
  exists qs before q, query_part tmpl qs /\ query_piece qs before q /\ binds name k q
    /\ forall x k', In x before -> ~ binds name k' x.

(** ** Checks on a model *)
Section S.
Variable X : ext.
Variable sch : schema.

Definition defined (n : string) : Prop := exists ts, defines sch n ts.

(** a type parameter that may be left out *)
Definition defined_or_none (n : string) : Prop := n = "" \/ defined n.

Definition field_ok (f : fielddef) : Prop :=
  let ts := fd_spec f in
  defined (ts_type ts)
  /\ (ts_type ts = "Array" -> defined_or_none (ts_items ts))
  /\ (ts_type ts = "Map" -> defined_or_none (ts_keys ts) /\ defined_or_none (ts_items ts))
  /\ (fd_default f <> VNil -> fd_required f = false /\ accepts X sch ts (fd_default f))
  /\ (ts_values ts = None \/ ts_pattern ts = "").

Definition typedef_ok (td : typedef) : Prop :=
  let ts := td_spec td in
  (ts_type ts = "Struct" -> forall f, In f (ts_fields ts) -> field_ok f)
  /\ (ts_type ts = "Array" -> defined (ts_items ts))
  /\ (ts_type ts = "Map" -> ts_items ts = "Any" \/ (defined (ts_items ts) /\ defined (ts_keys ts)))
  /\ (ts_type ts = "UnitValue" ->
        (exists v, defines sch (ts_value ts) v /\ In (ts_type v) number_kinds)
        /\ (exists u, defines sch (ts_unit ts) u /\ In (ts_type u) ["String"; "Enum"]))
  /\ (ts_type ts = "String" -> (ts_values ts = None \/ ts_pattern ts = "") /\ defined_or_none (ts_reference ts))
  /\ (ts_type ts = "UUID" -> defined_or_none (ts_reference ts)).

(** The parameters of an action that make up a request or response. *)
Definition params_example (params : list paramspec) (v : value) : Prop :=
  exists l, v = VMap l
  /\ (forall p k x, In p params -> In (k, x) l -> fd_name (ps_field p) = k ->
        exists ts, defines sch (ts_type (fd_spec (ps_field p))) ts /\ accepts X sch ts x)
  /\ (forall p, In p params -> fd_required (ps_field p) = true -> In (fd_name (ps_field p)) (map fst l)).

(** The action an example name [FooSuffix] belongs to: its name is [Foo] with a small first letter.
    The last case (a first byte outside ASCII is replaced by U+FFFD) is a quirk of the code. *)
Definition small_first (n s : string) : Prop :=
  (n = "" /\ s = "") \/ exists c r, n = String c r /\
    ((exists l, case_pair c l /\ s = String l r)
     \/ (~ upper_letter c /\ ascii7 c /\ s = n)
     \/ (~ ascii7 c /\ s = rune_error +++ r)).
Definition names_action (suffix target : string) (h : httpdef) : Prop :=
  In h (sc_http sch) /\ exists n, target = n +++ suffix /\ small_first n (h_name h).

(** The type an example is for: a type, or the last field of that name of a struct type. *)
Inductive target_type : string -> typespec -> Prop :=
| tt_type n ts : defines sch n ts -> target_type n ts
| tt_field t f ts fs1 fd fs2 : (forall ts', ~ defines sch (t +++ "." +++ f) ts') ->
    t <> "" -> no_char "." t -> defines sch t ts -> ts_type ts = "Struct" ->
    ts_fields ts = fs1 ++ fd :: fs2 -> fd_name fd = f -> (forall g, In g fs2 -> fd_name g <> f) ->
    target_type (t +++ "." +++ f) (fd_spec fd).

Definition example_ok (ex : exampledef) : Prop :=
  (exists ts, target_type (ex_target ex) ts /\ accepts X sch ts (ex_example ex))
  \/ (~ (exists ts, target_type (ex_target ex) ts) /\
      ((exists h, names_action "Request" (ex_target ex) h /\ params_example (h_inputs h) (ex_example ex))
       \/ (~ (exists n, ex_target ex = n +++ "Request") /\
           exists h x, names_action "Response" (ex_target ex) h /\ h_expected h = Some x
              /\ params_example (xp_outputs x) (ex_example ex)))).

(** An example for the response of an action that has no [expect]. *)
Definition nil_response (ex : exampledef) : Prop :=
  (exists l, ex_example ex = VMap l) /\ (forall ts, ~ target_type (ex_target ex) ts)
  /\ (~ exists n, ex_target ex = n +++ "Request")
  /\ exists h, names_action "Response" (ex_target ex) h /\ h_expected h = None.

(** ** Http *)
Definition body_input (p : paramspec) : Prop := ps_path p = false /\ ps_query p = "" /\ ps_header p = "".
Definition body_output (p : paramspec) : Prop := ps_header p = "".
Definition at_most_one {A} (P : A -> Prop) (l : list A) : Prop :=
  forall l1 a l2 b l3, l = l1 ++ a :: l2 ++ b :: l3 -> P a -> P b -> False.
Definition none {A} (P : A -> Prop) (l : list A) : Prop := forall a, In a l -> ~ P a.
Definition all_defined (l : list paramspec) : Prop :=
  forall p, In p l -> defined (ts_type (fd_spec (ps_field p))).

Definition http_ok (h : httpdef) : Prop :=
  (exists p, path_part (h_path h) p /\ template p)
  /\ all_defined (h_inputs h)
  /\ at_most_one body_input (h_inputs h)
  /\ (~ In (h_method h) ["POST"; "PUT"; "PATCH"] -> none body_input (h_inputs h))
  /\ (forall x, h_expected h = Some x ->
        all_defined (xp_outputs x) /\ at_most_one body_output (xp_outputs x)
        /\ (xp_status x = 204%Z \/ xp_status x = 304%Z -> none body_output (xp_outputs x))
        /\ forall e, In e (h_exceptions h) -> defined (xc_type e)).

(** ** The whole check *)
Definition model_ok : Prop :=
  (forall td, In td (sc_types sch) -> typedef_ok td)
  /\ (forall ex, In ex (sc_examples sch) -> example_ok ex)
  /\ (forall h, In h (sc_http sch) -> http_ok h).

(** What a parser puts into a schema: values whose objects have distinct keys, named parameters. *)
Definition values_wf : Prop :=
  (forall td f, In td (sc_types sch) -> In f (ts_fields (td_spec td)) -> vwf (fd_default f))
  /\ (forall ex, In ex (sc_examples sch) -> vwf (ex_example ex)).
Definition named (l : list paramspec) : Prop := forall p, In p l -> fd_name (ps_field p) <> "".
Definition params_named : Prop :=
  forall h, In h (sc_http sch) -> named (h_inputs h)
    /\ forall x, h_expected h = Some x -> named (xp_outputs x).
End S.
