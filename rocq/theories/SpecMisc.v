(** Specifications for misc.go: identifiers, layout of a comment, white space. *)
From Verif Require Import GoStr.

Definition lower_letter (c : ascii) : Prop := 97 <= nat_of_ascii c <= 122.
Definition upper_letter (c : ascii) : Prop := 65 <= nat_of_ascii c <= 90.
Definition letter (c : ascii) : Prop := lower_letter c \/ upper_letter c.
Definition digit (c : ascii) : Prop := 48 <= nat_of_ascii c <= 57.
Definition ascii7 (c : ascii) : Prop := nat_of_ascii c < 128.

Definition has_char (c : ascii) (s : string) : Prop := exists a b, s = a +++ String c b.

(** letters, digits and '_' starting with a letter *)
Definition identifier (s : string) : Prop :=
  exists c r, s = String c r /\ letter c
    /\ forall x, has_char x r -> letter x \/ digit x \/ x = "_"%char.

(** The letter that corresponds in the other case. *)
Definition case_pair (u l : ascii) : Prop :=
  upper_letter u /\ lower_letter l /\ nat_of_ascii l = nat_of_ascii u + 32.

Definition newline : string := String "010" EmptyString.

(** A comment laid out as lines: [margin], the words of one group separated by single blanks,
    a newline. *)
Definition one_line (margin : string) (ws : list string) : string :=
  margin +++ join " " ws +++ newline.
Definition lines_of (margin : string) (groups : list (list string)) : string :=
  fold_right (fun g acc => one_line margin g +++ acc) EmptyString groups.
Definition nonblank (s : string) : bool := negb (s =?s "").

Definition laid_out (margin : string) (limit : Z) (groups : list (list string)) : Prop :=
  forall g, In g groups -> g <> [] /\
    (2 <= length g -> (Z.of_nat (String.length (margin +++ join " " g)) <= limit)%Z).

(** Trimmed text: empty, or neither end is white space. *)
Definition blank_char (c : ascii) : Prop :=
  nat_of_ascii c = 32 \/ 9 <= nat_of_ascii c <= 13.
Definition trimmed (s : string) : Prop :=
  forall c, blank_char c -> (forall r, s <> String c r) /\ (forall r, s <> r +++ String c EmptyString).
(** [t] is [s] without the white space at both ends. *)
Definition trim_of (s t : string) : Prop :=
  trimmed t /\ exists a b, s = a +++ t +++ b
    /\ (forall c, has_char c a -> blank_char c) /\ (forall c, has_char c b -> blank_char c).
