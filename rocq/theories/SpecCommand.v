(** What the command line tool is expected to do: files, options, shorthands.  No functions of the model; [import_call] is its
    type of calls. *)
From Verif Require Import GoStr Outcome Value Data Schema Model Scan Command.

(** [path] ends in the extension [e]: a dot and what follows the last dot, in the last element *)
Definition extension (e path : string) : Prop :=
  exists b t, path = b +++ String "." t /\ e = String "." t /\ smem "." t = false /\ smem "/" t = false.
(** The formats a file may have by its extension, in the order they are tried *)
Inductive formats : string -> list string -> Prop :=
| formats_sadl : formats ".sadl" ["sadl"]
| formats_smithy : formats ".smithy" ["smithy"]
| formats_graphql : formats ".graphql" ["graphql"]
| formats_json : formats ".json" ["sadl"; "smithy"; "openapi"; "swagger"]
| formats_yaml : formats ".yaml" ["openapi"].
Definition input_name (path : string) : Prop := exists e fs, extension e path /\ formats e fs.

Section Files.
Context (stat : string -> option bool) (walk : string -> list string)
        (load : string -> result unit model) (recognise : string -> string -> result unit bool).
(** [sel] is what is left of [l] when only those with [P] are kept *)
Inductive kept {A} (P : A -> Prop) : list A -> list A -> Prop :=
| kept_nil : kept P [] []
| kept_in x l sel : P x -> kept P l sel -> kept P (x :: l) (x :: sel)
| kept_out x l sel : ~ P x -> kept P l sel -> kept P (x :: l) sel.
(** The files an argument stands for *)
Inductive stands_for (arg : string) : list string -> Prop :=
| stands_itself : input_name arg -> stands_for arg [arg]
| stands_directory l : ~ input_name arg -> stat arg = Some true -> kept input_name (walk arg) l -> stands_for arg l
| stands_nothing : ~ input_name arg -> stat arg = Some false -> stands_for arg [].
Inductive candidates : list string -> list string -> Prop :=
| candidates_nil : candidates [] []
| candidates_cons a l args r : stands_for a l -> candidates args r -> candidates (a :: args) (l ++ r).
(** Whether a file is of a format: SADL and GraphQL by name, SADL as JSON if it loads, the others as their readers say *)
Definition says (format path : string) (answer : result unit bool) : Prop :=
  (format = "sadl" /\ extension ".json" path /\ ((exists m, load path = Ok m /\ answer = Ok true)
      \/ (exists e, load path = Err e /\ answer = Ok false) \/ (load path = Panic /\ answer = Panic) \/ (load path = OutOfFuel /\ answer = OutOfFuel)))
  \/ (format = "sadl" /\ ~ extension ".json" path /\ answer = Ok true)
  \/ (format = "graphql" /\ answer = Ok true)
  \/ (format <> "sadl" /\ format <> "graphql" /\ answer = recognise format path).
(** The first format of the extension that a file is of *)
Definition reads_as (path format : string) : Prop :=
  exists e l1 l2, extension e path /\ formats e (l1 ++ format :: l2) /\ says format path (Ok true) /\ forall g, In g l1 -> says g path (Ok false).
Definition unread (path : string) : Prop :=
  exists e fs, extension e path /\ formats e fs /\ forall g, In g fs -> says g path (Ok false).
Definition crashes (path : string) : Prop :=
  exists e l1 f l2, extension e path /\ formats e (l1 ++ f :: l2) /\ says f path Panic /\ forall g, In g l1 -> says g path (Ok false).
(** [sel]: the files of [l] that are read, all of them as [format] *)
Inductive selects (format : string) : list string -> list string -> Prop :=
| selects_nil : selects format [] []
| selects_one p l sel : reads_as p format -> selects format l sel -> selects format (p :: l) (p :: sel)
| selects_skip p l sel : unread p -> selects format l sel -> selects format (p :: l) sel.
End Files.
(** The importer that is called: one SADL file, parsed or loaded, or the files of another format *)
Definition called (f : string) (sel : list string) (c : import_call) : Prop :=
  (f = "sadl" /\ exists p, sel = [p] /\ ((extension ".json" p /\ c = CLoad p) \/ (~ extension ".json" p /\ c = CParse p)))
  \/ (f <> "sadl" /\ c = CImport f sel).

(** ** Options *)
(** What one -x option says: key=value, or a key alone *)
Definition option_says (o k : string) (v : value) : Prop :=
  (exists s, o = k +++ String "=" s /\ smem "=" k = false /\ v = VStr s) \/ (smem "=" o = false /\ k = o /\ v = VBool true).
(** What is made of it: a value ends where another equals sign follows *)
Definition option_read (o k : string) (v : value) : Prop :=
  (exists s r, (o = k +++ String "=" s /\ r = "" \/ o = k +++ String "=" (s +++ String "=" r)) /\ smem "=" k = false /\ smem "=" s = false /\ v = VStr s)
  \/ (smem "=" o = false /\ k = o /\ v = VBool true).
Definition last_of (R : string -> string -> value -> Prop) (opts : list string) (k : string) (v : value) : Prop :=
  exists a o b, opts = a ++ o :: b /\ R o k v /\ forall o' v', In o' b -> ~ R o' k v'.
(** An option's value: the last -x for it, else -f for force-overwrite, else what the section of the configuration says *)
Definition option_value (R : string -> string -> value -> Prop) (section : value) (force : bool) (opts : list string) (k : string) (v : value) : Prop :=
  last_of R opts k v
  \/ (forall o v', In o opts -> ~ R o k v')
     /\ (k = "force-overwrite" /\ v = VBool force
         \/ k <> "force-overwrite" /\ ((exists l, section = VMap l /\ (In (k, v) l \/ ~ In k (map fst l) /\ v = VNil)) \/ section = VNil /\ v = VNil)).
(** Two configurations say the same *)
Definition same_options (d d' : data) : Prop := forall k, d_get d [k] = d_get d' [k].

(** No word of the text is [w] *)
Definition no_word (w : string) (toks : list token) : Prop := ~ In (mkTok SYMBOL w) toks.
