(** A small scanner.  It is used for writing down token sequences in examples, and it says what is assumed
    about the scanner package, which is not part of /repo, where theorems are about text (PropsUnparse.v). *)
From Verif Require Import GoStr Scan.

Definition word_start (c : ascii) : bool := ch_in "a" "z" c || ch_in "A" "Z" c || Ascii.eqb c "_".
Definition word_char (c : ascii) : bool := word_start c || is_digit c.
Definition num_char (c : ascii) : bool := is_digit c || Ascii.eqb c "." || Ascii.eqb c "-".
Definition nl_char : ascii := ascii_of_nat 10.
Fixpoint span (p : ascii -> bool) (s : string) : string * string :=
  match s with
  | String c r => if p c then let '(a, b) := span p r in (String c a, b) else (EmptyString, s)
  | EmptyString => (EmptyString, EmptyString)
  end.
(** up to an unescaped quote *)
Fixpoint quoted (s : string) : string * string :=
  match s with
  | String c r =>
      if Ascii.eqb c """" then (EmptyString, r)
      else if Ascii.eqb c "\" then
        match r with String d r' => let '(a, b) := quoted r' in (String c (String d a), b) | EmptyString => (s, EmptyString) end
      else let '(a, b) := quoted r in (String c a, b)
  | EmptyString => (EmptyString, EmptyString)
  end.
(** up to the end of a block comment *)
Fixpoint block (s : string) : string * string :=
  match s with
  | String "*" (String "/" r) => (EmptyString, r)
  | String c r => let '(a, b) := block r in (String c a, b)
  | EmptyString => (EmptyString, EmptyString)
  end.
Definition punct (c : ascii) : option ttype :=
  match c with
  | ":" => Some COLON | ";" => Some SEMICOLON | "," => Some COMMA | "." => Some DOT | "=" => Some EQUALS
  | "{" => Some OPEN_BRACE | "}" => Some CLOSE_BRACE | "[" => Some OPEN_BRACKET | "]" => Some CLOSE_BRACKET
  | "(" => Some OPEN_PAREN | ")" => Some CLOSE_PAREN | "<" => Some OPEN_ANGLE | ">" => Some CLOSE_ANGLE
  | _ => None
  end%char.
Fixpoint lex_ (fuel : nat) (s : string) : list token :=
  match fuel with
  | O => []
  | S f =>
      match s with
      | EmptyString => []
      | String c r =>
          if Ascii.eqb c nl_char then mkTok NEWLINE (chr 10) :: lex_ f r
          else if Ascii.eqb c " " then lex_ f r
          else if Ascii.eqb c """" then let '(a, b) := quoted r in mkTok STRING a :: lex_ f b
          else if has_prefix "//" s then
            let '(a, b) := span (fun c => negb (Ascii.eqb c nl_char)) s in
            mkTok LINE_COMMENT (match a with String _ (String _ t) => t | _ => "" end) :: lex_ f b
          else if has_prefix "/*" s then let '(a, b) := block r in mkTok BLOCK_COMMENT a :: lex_ f b
          else if word_start c then let '(a, b) := span word_char s in mkTok SYMBOL a :: lex_ f b
          else if is_digit c || Ascii.eqb c "-" then let '(a, b) := span num_char s in mkTok NUMBER a :: lex_ f b
          else mkTok (match punct c with Some t => t | None => OTHER end) (String c "") :: lex_ f r
      end
  end.
Definition lex (s : string) : list token := lex_ (String.length s) s.
Fixpoint lines (l : list string) : string := match l with [] => "" | a :: r => a +++ chr 10 +++ lines r end.
Definition src (l : list string) : list token := lex (lines l).
