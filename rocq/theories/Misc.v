(** misc.go, and MergeComment of parser.go. *)
From Verif Require Import GoStr.

(** misc.go:12-17 *)
Definition capitalize (s : string) : string :=
  match s with EmptyString => EmptyString | String c r => upper1 c +++ r end.
(** misc.go:19-24 *)
Definition uncapitalize (s : string) : string :=
  match s with EmptyString => EmptyString | String c r => lower1 c +++ r end.

(** misc.go:53-67 [IsDigit], [IsLetter], 26-34 [IsSymbolChar], on one byte *)
Definition is_letter (c : ascii) : bool := is_upper c || is_lower c.
Definition is_symbol_char (c : ascii) (first : bool) : bool :=
  if is_letter c then true else if first then false else is_digit c || Ascii.eqb c "_".

(** model.go:471-484 IsSymbol.  The Go code ranges over the runes of [s[1:]]; a rune that is not
    one ASCII byte is never a symbol character, and each of its bytes is above 127, so looking
    at bytes gives the same verdict. *)
Definition is_symbol (s : string) : bool :=
  match s with
  | EmptyString => false
  | String c r => is_symbol_char c true && sforall (fun c => is_symbol_char c false) r
  end.

(** misc.go:166-176 GetAnnotation *)
Definition get_annotation (annos : list (string * string)) (key : string) : string :=
  match assoc key annos with
  | Some s => if s =?s "" then "true" else s
  | None => ""
  end.

Definition nl : string := String "010" EmptyString.

Fixpoint spaces (n : nat) : string :=
  match n with O => EmptyString | S k => String " " (spaces k) end.

(** [strings.Trim(s, " ")] *)
Fixpoint ltrim_sp (s : string) : string :=
  match s with String c r => if Ascii.eqb c " " then ltrim_sp r else s | EmptyString => EmptyString end.
Fixpoint rtrim_sp (s : string) : string :=
  match s with
  | EmptyString => EmptyString
  | String c r => match rtrim_sp r with
                  | EmptyString => if Ascii.eqb c " " then EmptyString else String c EmptyString
                  | r' => String c r'
                  end
  end.
Definition trim_sp (s : string) : string := rtrim_sp (ltrim_sp s).

Definition slen (s : string) : Z := Z.of_nat (String.length s).

(** misc.go:134-151: the token loop; the result is what the loop appends to [buf]. *)
Fixpoint wrap (tab prefix : string) (maxcol col : Z) (toks : list string) : string :=
  match toks with
  | [] => EmptyString
  | tok :: r =>
      let brk := (maxcol <=? col + slen tok)%Z in
      let col1 := if brk then 0%Z else col in
      (if brk then nl else EmptyString) +++
      (if (col1 =? 0)%Z
       then tab +++ prefix +++ tok +++ wrap tab prefix maxcol (slen tab + slen prefix + slen tok)%Z r
       else " " +++ tok +++ wrap tab prefix maxcol (col1 + (slen tok + 1))%Z r)
  end.

(** misc.go:125-132 *)
Fixpoint each_line (tab prefix : string) (lines : list string) : string :=
  match lines with
  | [] => EmptyString
  | l :: r => tab +++ prefix +++ l +++ nl +++ each_line tab prefix r
  end.

(** misc.go:115-164 FormatComment *)
Definition format_comment (indent prefix comment : string) (maxcol : Z) (extra_pad : bool) : string :=
  if (maxcol <=? slen indent)%Z && negb (contains nl comment)
  then indent +++ prefix +++ comment +++ nl
  else
    let tab := spaces (String.length indent) in
    if contains nl comment then each_line tab prefix (split "010" comment)
    else
      let pad := if extra_pad then tab +++ trim_sp prefix +++ nl else EmptyString in
      pad +++ (wrap tab prefix maxcol 0 (split " " comment) +++ nl) +++ pad.

(** parser.go:2050-2058 MergeComment *)
Definition merge_comment (c1 c2 : string) : string :=
  if c1 =?s "" then trim_space c2
  else if c2 =?s "" then trim_space c1
  else trim_space c1 +++ " " +++ trim_space c2.
