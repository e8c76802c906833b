(** Where the examples of a model appear in its OpenAPI document; the records of OasExamples.v, none of its
    functions. *)
From Verif Require Import GoStr Value Schema SpecModel SpecPV SpecGen SpecTrace OpenApi SpecOpenApi OasExamples.

(** ** Actions and their operations *)
(** the methods that a document has, the first ones before the others *)
Definition written_methods : list string := ["GET"; "PUT"; "DELETE"; "POST"].
Definition ahead (a b : string) : Prop := exists l1 l2 l3, written_methods = l1 ++ a :: l2 ++ b :: l3.
(** an action of that path *)
Definition on_path (sch : schema) (p : string) (h : httpdef) : Prop := In h (sc_http sch) /\ path_part (sc_base sch +++ h_path h) p.
(** an action with a method that is written, and no action of the same path with a method ahead of it *)
Definition leads (sch : schema) (p : string) (h : httpdef) : Prop :=
  on_path sch p h /\ In (h_method h) written_methods
  /\ forall h', on_path sch p h' -> ~ ahead (h_method h') (h_method h).
(** a path of actions none of which is written *)
Definition bare_path (sch : schema) (p : string) : Prop :=
  (exists h, on_path sch p h) /\ forall h, on_path sch p h -> ~ In (h_method h) written_methods.

(** the name of the parameter that stands for an input *)
Definition written_name (q : paramspec) (k : string) : Prop :=
  (ps_path q = true /\ k = fd_name (ps_field q))
  \/ (ps_path q = false /\ ps_query q <> "" /\ k = ps_query q)
  \/ (ps_path q = false /\ ps_query q = "" /\ ps_header q <> "" /\ k = ps_header q).
(** the input behind the parameter with that number *)
Definition parameter (h : httpdef) (i : nat) (q : paramspec) : Prop :=
  exists kept, without is_body (h_inputs h) kept /\ nth_error kept i = Some q.

(** ** What an example is for *)
Definition for_a_request (sch : schema) (ex : exampledef) : Prop :=
  ~ declared sch (ex_target ex) /\ exists n, ex_target ex = n +++ "Request".
Definition for_a_response (sch : schema) (ex : exampledef) : Prop :=
  ~ declared sch (ex_target ex) /\ (~ exists n, ex_target ex = n +++ "Request") /\ exists n, ex_target ex = n +++ "Response".
(** the action that it is for, at the head of its path *)
Definition request_of (sch : schema) (ex : exampledef) (p : string) (h : httpdef) : Prop :=
  for_a_request sch ex /\ names_action sch "Request" (ex_target ex) h /\ leads sch p h.
Definition response_of (sch : schema) (ex : exampledef) (p : string) (h : httpdef) : Prop :=
  for_a_response sch ex /\ names_action sch "Response" (ex_target ex) h /\ leads sch p h.

Definition has_entry (ex : exampledef) (k : string) (v : value) : Prop := exists l, ex_example ex = VMap l /\ In (k, v) l.

(** ** Where it appears, and under which name *)
Inductive lands (sch : schema) (ex : exampledef) : place -> string -> value -> Prop :=
| ln_type : declared sch (ex_target ex) -> lands sch ex (AtType (ex_target ex)) "" (ex_example ex)
| ln_body p h v : request_of sch ex p h -> has_entry ex "body" v -> lands sch ex (AtBody p (h_method h)) (ex_name ex) v
| ln_param p h i q k v : request_of sch ex p h \/ response_of sch ex p h -> has_entry ex k v -> k <> "body" ->
    parameter h i q -> written_name q k -> lands sch ex (AtParam p (h_method h) i) (ex_name ex) v
| ln_answer p h e d v : response_of sch ex p h -> has_entry ex "body" v -> h_expected h = Some e -> numeral d (xp_status e) ->
    lands sch ex (AtAnswer p (h_method h) d) (ex_name ex) v.
(** the last example that appears there under that name *)
Definition last_landed (sch : schema) (at_ : place) (n : string) (v : value) : Prop :=
  exists ex, last_that (fun ex => exists w, lands sch ex at_ n w) (sc_examples sch) ex /\ lands sch ex at_ n v.
(** what a document shows: the last of its entries of that place and name *)
Definition stands (l : shown_examples) (at_ : place) (n : string) (v : value) : Prop :=
  last_that (fun e => fst e = (at_, n)) l (at_, n, v).
(** the entries of an object have different names (a Go map) *)
Definition maps_once (sch : schema) : Prop :=
  forall ex l, In ex (sc_examples sch) -> ex_example ex = VMap l -> NoDup (map fst l).

(** ** When it cannot be written *)
Definition object (v : value) : Prop := exists l, v = VMap l.
(** the expected response has JSON, or an exception of the same status has taken its place *)
Definition has_json (h : httpdef) : Prop :=
  exists e, h_expected h = Some e
  /\ ((exists q, In q (xp_outputs e) /\ ps_header q = "")
      \/ exists x, In x (h_exceptions h) /\ xc_status x = xp_status e /\ xc_status x <> 0%Z).
Inductive breaks (sch : schema) (ex : exampledef) : Prop :=
| br_request p h : request_of sch ex p h -> ~ object (ex_example ex) -> breaks sch ex
| br_body p h v : request_of sch ex p h -> has_entry ex "body" v -> (forall q, In q (h_inputs h) -> ~ is_body q) -> breaks sch ex
| br_none : for_a_response sch ex -> (forall p h, ~ response_of sch ex p h) -> breaks sch ex
| br_response p h : response_of sch ex p h -> ~ object (ex_example ex) -> breaks sch ex
| br_answer p h v : response_of sch ex p h -> has_entry ex "body" v -> ~ has_json h -> breaks sch ex.
