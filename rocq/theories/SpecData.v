(** Paths through nested objects, and histories of Puts. *)
From Verif Require Import GoStr Value.

Inductive at_path : list (string * value) -> list string -> value -> Prop :=
| at_one l k v : In (k, v) l -> at_path l [k] v
| at_more l k l' ks v : In (k, VMap l') l -> at_path l' ks v -> at_path l (k :: ks) v.

(** [sub] is [ks] with some keys left out, the last one kept. *)
Inductive keeps_last : list string -> list string -> Prop :=
| kl_one k : keeps_last [k] [k]
| kl_keep k s l : keeps_last s l -> keeps_last (k :: s) (k :: l)
| kl_drop k s l : keeps_last s l -> keeps_last s (k :: l).
