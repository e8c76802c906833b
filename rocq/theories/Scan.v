(** Tokens, the parser's reading and pushing back of them, and the two strconv functions the
    parser applies to their text.

    The scanner itself (github.com/boynton/scanner) is not part of /repo; the parser is modelled
    over the sequence of tokens it delivers.  Assumed about it: [Token.IsText] means SYMBOL or
    STRING, [Token.IsNumeric] means NUMBER, and after the last token it delivers EOF forever.
    Positions of tokens (used in messages only) are not modelled. *)
From Verif Require Import GoStr Outcome Value.

Inductive ttype :=
| SYMBOL | NUMBER | STRING | LINE_COMMENT | BLOCK_COMMENT | NEWLINE
| COLON | SEMICOLON | COMMA | DOT | EQUALS
| OPEN_BRACE | CLOSE_BRACE | OPEN_BRACKET | CLOSE_BRACKET | OPEN_PAREN | CLOSE_PAREN
| OPEN_ANGLE | CLOSE_ANGLE
| OTHER.     (* any other token type of the scanner; none of them means anything to this parser *)
Definition ttype_eq_dec (a b : ttype) : {a = b} + {a <> b}.
Proof. decide equality. Defined.
Definition teqb (a b : ttype) : bool := if ttype_eq_dec a b then true else false.

Record token := mkTok { tk_type : ttype; tk_text : string }.

(** Classes of parse errors; texts and positions are not modelled. *)
Inductive perror :=
| PSyntax | PEof | PExpected | PBad (what : string) | PDuplicate (n : string)
| PInclude (file : string) | PModel
| PDeep.    (* not an error of the parser: the bound on the nesting of includes was reached *)

(** A parser as the sequence of its calls of GetToken and UngetToken.  [Crash]: nil dereference;
    [Spin]: the fuel of a loop ran out. *)
Inductive prog (A : Type) : Type :=
| Ret (a : A)
| Fail (e : perror)
| Crash
| Spin
| Get (k : option token -> prog A)
| Unget (k : prog A).
Arguments Ret {A}. Arguments Fail {A}. Arguments Crash {A}. Arguments Spin {A}.
Arguments Get {A}. Arguments Unget {A}.

Fixpoint bind {A B} (p : prog A) (f : A -> prog B) : prog B :=
  match p with
  | Ret a => f a
  | Fail e => Fail e
  | Crash => Crash
  | Spin => Spin
  | Get k => Get (fun t => bind (k t) f)
  | Unget k => Unget (bind k f)
  end.
Notation "x <~ p ;; k" := (bind p (fun x => k)) (at level 100, p at next level, right associativity).
Notation "' pt <~ p ;; k" := (bind p (fun pt => k))
  (at level 100, pt pattern, p at next level, right associativity).

(** A Go call whose error is looked at (or dropped) by the caller: [None] for an error. *)
Fixpoint try {A} (p : prog A) : prog (option A) :=
  match p with
  | Ret a => Ret (Some a)
  | Fail _ => Ret None
  | Crash => Crash
  | Spin => Spin
  | Get k => Get (fun t => try (k t))
  | Unget k => Unget (try k)
  end.

(** [for { ... }]: the body gives the next state of the loop or leaves it *)
Fixpoint loop {S A} (fuel : nat) (body : S -> prog (S + A)) (s : S) : prog A :=
  match fuel with
  | O => Spin
  | Datatypes.S f =>
      r <~ body s ;;
      match r with inl s' => loop f body s' | inr a => Ret a end
  end.

(** parser.go:60-72: the reading part of the state of a Parser; [ps_rest] is what the scanner still has *)
Record pstate := mkPS {
  ps_rest : list token; ps_last : option token; ps_prev : option token; ps_ungot : option token }.
Definition start (toks : list token) : pstate := mkPS toks None None None.

(** the inner loop of parser.go:120-128: block comments are dropped *)
Fixpoint skip_block (l : list token) : option (token * list token) :=
  match l with
  | [] => None
  | t :: r => match tk_type t with BLOCK_COMMENT => skip_block r | _ => Some (t, r) end
  end.
(** parser.go:113-133 GetToken.  A pushed-back block comment cannot occur: none is ever returned. *)
Definition get_token (st : pstate) : option token * pstate :=
  match ps_ungot st with
  | Some t => (Some t, mkPS (ps_rest st) (Some t) (ps_prev st) None)
  | None =>
      match skip_block (ps_rest st) with
      | Some (t, r) => (Some t, mkPS r (Some t) (ps_last st) None)
      | None => (None, mkPS [] (ps_last st) (ps_last st) None)
      end
  end.
(** parser.go:107-111 UngetToken *)
Definition unget_token (st : pstate) : pstate :=
  mkPS (ps_rest st) (ps_prev st) (ps_prev st) (ps_last st).

Fixpoint run {A} (p : prog A) (st : pstate) : result perror (A * pstate) :=
  match p with
  | Ret a => Ok (a, st)
  | Fail e => Err e
  | Crash => Panic
  | Spin => OutOfFuel
  | Get k => let '(t, st') := get_token st in run (k t) st'
  | Unget k => run k (unget_token st)
  end.

(** ** strconv *)
Definition digit_val (c : ascii) : option Z :=
  if is_digit c then Some (Z.of_nat (nat_of_ascii c - 48)) else None.
Fixpoint digits_val (acc : Z) (s : string) : option Z :=
  match s with
  | EmptyString => Some acc
  | String c r => match digit_val c with Some d => digits_val (acc * 10 + d)%Z r | None => None end
  end.
Definition unsigned_val (s : string) : option Z :=
  match s with EmptyString => None | _ => digits_val 0%Z s end.
(** [strconv.ParseInt(text, 10, bits)]; [None] for any error *)
Definition parse_int (bits : Z) (s : string) : option Z :=
  let chk z := if ((- 2 ^ (bits - 1) <=? z)%Z && (z <? 2 ^ (bits - 1))%Z)%bool then Some z else None in
  match s with
  | String "-" r => match unsigned_val r with Some z => chk (- z)%Z | None => None end
  | String "+" r => match unsigned_val r with Some z => chk z | None => None end
  | _ => match unsigned_val s with Some z => chk z | None => None end
  end.

Definition hex_val (c : ascii) : option nat :=
  let n := nat_of_ascii c in
  if ch_in "0" "9" c then Some (n - 48)
  else if ch_in "a" "f" c then Some (n - 87)
  else if ch_in "A" "F" c then Some (n - 55)
  else None.
Definition chr (n : nat) : string := String (ascii_of_nat n) EmptyString.
(** UTF-8 encoding of a code point; [None] for a surrogate or a value above 0x10FFFF *)
Definition utf8 (n : N) : option string :=
  (let b k := chr (N.to_nat k) in
   if n <? 128 then Some (b n)
   else if n <? 2048 then Some (b (192 + n / 64) +++ b (128 + n mod 64))
   else if (55296 <=? n) && (n <? 57344) then None
   else if n <? 65536 then Some (b (224 + n / 4096) +++ b (128 + n / 64 mod 64) +++ b (128 + n mod 64))
   else if n <? 1114112 then
     Some (b (240 + n / 262144) +++ b (128 + n / 4096 mod 64) +++ b (128 + n / 64 mod 64) +++ b (128 + n mod 64))
   else None)%N.
Fixpoint hex_num (acc : N) (l : list ascii) : option N :=
  match l with
  | [] => Some acc
  | c :: r => match hex_val c with Some d => hex_num (acc * 16 + N.of_nat d)%N r | None => None end
  end.
Definition oct_val (c : ascii) : option nat := if ch_in "0" "7" c then Some (nat_of_ascii c - 48) else None.

Definition simple_escape (c : ascii) : option nat :=
  if Ascii.eqb c "a" then Some 7 else if Ascii.eqb c "b" then Some 8
  else if Ascii.eqb c "f" then Some 12 else if Ascii.eqb c "n" then Some 10
  else if Ascii.eqb c "r" then Some 13 else if Ascii.eqb c "t" then Some 9
  else if Ascii.eqb c "v" then Some 11 else if Ascii.eqb c "\" then Some 92
  else if Ascii.eqb c """" then Some 34 else None.

Definition cat_opt (a b : option string) : option string :=
  match a, b with Some x, Some y => Some (x +++ y) | _, _ => None end.
(** [strconv.Unquote("\"" + s + "\"")].  Bytes from 128 on are copied: for a text that is not
    valid UTF-8 Go puts U+FFFD instead (not modelled). *)
Fixpoint unquote (s : string) : option string :=
  match s with
  | EmptyString => Some EmptyString
  | String c r =>
      if Ascii.eqb c """" then None
      else if Ascii.eqb c "010" then None
      else if Ascii.eqb c "\" then
        match r with
        | EmptyString => None
        | String e r1 =>
            match simple_escape e with
            | Some n => cat_opt (Some (chr n)) (unquote r1)
            | None =>
                if Ascii.eqb e "x" then
                  match r1 with
                  | String a (String b r2) =>
                      match hex_num 0 [a; b] with
                      | Some n => cat_opt (Some (chr (N.to_nat n))) (unquote r2)
                      | None => None
                      end
                  | _ => None
                  end
                else if Ascii.eqb e "u" then
                  match r1 with
                  | String a (String b (String c1 (String d r2))) =>
                      match hex_num 0 [a; b; c1; d] with
                      | Some n => cat_opt (utf8 n) (unquote r2)
                      | None => None
                      end
                  | _ => None
                  end
                else if Ascii.eqb e "U" then
                  match r1 with
                  | String a (String b (String c1 (String d (String a2 (String b2 (String c2 (String d2 r2))))))) =>
                      match hex_num 0 [a; b; c1; d; a2; b2; c2; d2] with
                      | Some n => cat_opt (utf8 n) (unquote r2)
                      | None => None
                      end
                  | _ => None
                  end
                else
                  match oct_val e, r1 with
                  | Some x, String b (String d r2) =>
                      match oct_val b, oct_val d with
                      | Some y, Some z =>
                          let n := 64 * x + 8 * y + z in
                          if n <? 256 then cat_opt (Some (chr n)) (unquote r2) else None
                      | _, _ => None
                      end
                  | _, _ => None
                  end
            end
        end
      else cat_opt (Some (String c EmptyString)) (unquote r)
  end.
