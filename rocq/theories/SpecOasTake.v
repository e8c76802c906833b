(** The examples in the schemas of an OpenAPI document.  Of the model only the data types are used. *)
From Verif Require Import GoStr Value Schema OpenApi SpecImport SpecPV.
From Verif Require OasTake.
Import OasTake.

Definition ref_prefix : string := "#/components/schemas/".
(** no other schema is meant *)
Definition itself (x : oasx) : Prop := o_ref (x_head x) = "" \/ o_ref (x_head x) = ref_prefix.
(** [carries x l v]: following the labels [l] from the schema [x] there is the example [v]; references are not followed *)
Inductive carries : oasx -> list string -> value -> Prop :=
| ca_here h v i ps : carries (mkX h (Some v) i ps) [] v
| ca_item h e y ps l v : o_type h = "array" -> o_ref (x_head y) = "" -> carries y l v -> carries (mkX h e (Some y) ps) ("Items" :: l) v
| ca_prop h e i ps f y l v : o_type h = "" \/ o_type h = "object" -> In (f, y) ps -> itself y -> carries y l v ->
    carries (mkX h e i (Some ps)) (f :: l) v.
(** the name of the schema whose examples count for the component [n] *)
Definition stands_for (all : list (string * oasx)) (n : string) (x : oasx) (t : string) (y : oasx) : Prop :=
  itself x /\ t = n /\ y = x
  \/ t <> "" /\ (o_ref (x_head x) = ref_prefix +++ t \/ ~ (exists r, o_ref (x_head x) = ref_prefix +++ r) /\ t = o_ref (x_head x))
     /\ exists a b, all = a ++ (t, y) :: b /\ forall z, ~ In (t, z) a.
(** a target that the parser finds: a type, or a field of a struct *)
Definition addressed (tds : list typedef) (target : string) : Prop :=
  (exists td, In td tds /\ td_name td = target)
  \/ exists td f, In td tds /\ ts_type (td_spec td) = "Struct" /\ In f (ts_fields (td_spec td)) /\ target = td_name td +++ "." +++ fd_name f.
(** names without dots: of the components and of their properties *)
Definition properties (x : oasx) : list string := match x with mkX _ _ _ (Some ps) => map fst ps | _ => [] end.
Definition no_dots (ss : list (string * oasx)) : Prop := forall n x, In (n, x) ss -> no_char "." n /\ forall f, In f (properties x) -> no_char "." f.
(** the examples of the expected response of an action *)
Inductive responds (hs : list (string * oasx)) (body : option oasx) : list string -> value -> Prop :=
| re_header h y h' l v : In (h, y) hs -> o_ref (x_head y) = "" -> (h = "x-" +++ h' \/ h = "X-" +++ h' \/ h' = h /\ forall r, h <> "x-" +++ r /\ h <> "X-" +++ r) ->
    carries y l v -> responds hs body (letters h' :: l) v
| re_body y l v : body = Some y -> o_ref (x_head y) = "" -> carries y l v -> responds hs body ("payload" :: l) v.
