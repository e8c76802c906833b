(** Results of modelled functions: a Go function returning [error] gives [Ok]/[Err];
    a nil dereference, bad type assertion or [panic] is [Panic]; [OutOfFuel] means the
    fuel of a recursive model ran out (a diverging Go function gives it for every fuel). *)
From Verif Require Import GoStr.

Inductive result (E A : Type) : Type :=
| Ok (a : A)
| Err (e : E)
| Panic
| OutOfFuel.
Arguments Ok {E A} a.
Arguments Err {E A} e.
Arguments Panic {E A}.
Arguments OutOfFuel {E A}.

Definition rbind {E A B} (r : result E A) (f : A -> result E B) : result E B :=
  match r with
  | Ok a => f a
  | Err e => Err e
  | Panic => Panic
  | OutOfFuel => OutOfFuel
  end.

Notation "x <- r ;; k" := (rbind r (fun x => k))
  (at level 100, r at next level, right associativity).
Notation "' p <- r ;; k" := (rbind r (fun p => k))
  (at level 100, p pattern, r at next level, right associativity).

Lemma rbind_Ok {E A B} (r : result E A) (f : A -> result E B) b :
  rbind r f = Ok b <-> exists a, r = Ok a /\ f a = Ok b.
Proof.
  destruct r; simpl; split; try discriminate; try (intros (x & Hx & _); discriminate).
  - intro H. exists a. auto.
  - intros (x & Hx & Hf). injection Hx as <-. exact Hf.
Qed.
