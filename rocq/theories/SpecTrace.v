(** What a trace of requests and answers shows. *)
From Verif Require Import GoStr Value Schema SpecTime SpecMisc SpecPV SpecGen.

(** ** Messages *)
Record message := mkMsg { ms_start : string; ms_headers : list (string * string); ms_body : string }.
(** [line ++ name: value lines ++ blank line ++ body] *)
Fixpoint header_text (hs : list (string * string)) : string :=
  match hs with [] => "" | (k, v) :: r => k +++ ": " +++ v +++ newline +++ header_text r end.
Definition message_text (m : message) : string :=
  ms_start m +++ newline +++ header_text (ms_headers m) +++ newline +++ ms_body m.

(** How a receiver reads a text: the first line, [name: value] lines up to an empty line, and the rest as the body. *)
Inductive header_lines : string -> list (string * string) -> string -> Prop :=
| hr_end b : header_lines (newline +++ b) [] b
| hr_line k v r hs b : k <> "" -> no_char ":" k -> no_char "010" k -> no_char "010" v -> header_lines r hs b ->
    header_lines (k +++ ": " +++ v +++ newline +++ r) ((k, v) :: hs) b.
Definition reads_as (text : string) (m : message) : Prop :=
  exists r, text = ms_start m +++ newline +++ r /\ no_char "010" (ms_start m) /\ header_lines r (ms_headers m) (ms_body m).

(** a number in decimal, without zeros in front *)
Definition numeral (s : string) (z : Z) : Prop :=
  exists d, digits d (Z.abs z) /\ (forall r, d = String "0" r -> r = "") /\ ((z < 0)%Z /\ s = "-" +++ d \/ (0 <= z)%Z /\ s = d).

(** ** A named request and its answer *)
Record exchange := mkXg { xg_name : string; xg_request : message; xg_response : option message }.
Definition exchange_text (action : string) (x : exchange) : string :=
  "#" +++ newline +++ "# " +++ xg_name x +++ " (action=" +++ action +++ ")" +++ newline +++ "#" +++ newline
  +++ "#   Request:" +++ newline +++ message_text (xg_request x) +++ newline
  +++ match xg_response x with None => "" | Some r => "#   Response:" +++ newline +++ message_text r +++ newline end.
Fixpoint exchanges_text (action : string) (l : list exchange) : string :=
  match l with [] => "" | x :: r => exchange_text action x +++ exchanges_text action r end.

(** ** The examples behind it *)
Definition last_that {A} (P : A -> Prop) (l : list A) (x : A) : Prop :=
  exists l1 l2, l = l1 ++ x :: l2 /\ P x /\ forall y, In y l2 -> ~ P y.
(** the name of an action with a large first letter; as in [small_first] a first byte outside ASCII is replaced *)
Definition large_first (n s : string) : Prop :=
  (n = "" /\ s = "") \/ exists c r, n = String c r /\
    ((exists u, case_pair u c /\ s = String u r)
     \/ (~ lower_letter c /\ ascii7 c /\ s = n)
     \/ (~ ascii7 c /\ s = rune_error +++ r)).
Definition for_part (h : httpdef) (part target : string) : Prop := exists t, large_first (h_name h) t /\ target = t +++ part.
Definition for_request (h : httpdef) (ex : exampledef) : Prop := for_part h "Request" (ex_target ex).
Definition for_response (h : httpdef) (ex : exampledef) : Prop := ~ for_request h ex /\ for_part h "Response" (ex_target ex).
Definition for_exception (h : httpdef) (ex : exampledef) (e : exceptionspec) : Prop :=
  ~ for_request h ex /\ ~ for_response h ex /\ last_that (fun e => xc_type e = ex_target ex) (h_exceptions h) e.
Definition for_answer (h : httpdef) (ex : exampledef) : Prop := for_response h ex \/ exists e, for_exception h ex e.

Definition request_named (h : httpdef) (n : string) (ex : exampledef) : Prop := for_request h ex /\ ex_name ex = n.
Definition answer_named (h : httpdef) (n : string) (ex : exampledef) : Prop := for_answer h ex /\ ex_name ex = n.
Definition failure_named (h : httpdef) (n : string) (ex : exampledef) : Prop := (exists e, for_exception h ex e) /\ ex_name ex = n.

(** the value a name has in an object, nil if it has none *)
Definition entry (l : list (string * value)) (n : string) (v : value) : Prop :=
  (exists l1 l2, l = l1 ++ (n, v) :: l2 /\ ~ In n (map fst l1)) \/ (~ In n (map fst l) /\ v = VNil).

(** [s'] is [s] with every occurrence of [old], from the left, replaced by [new] *)
Inductive replaced (old new : string) : string -> string -> Prop :=
| rp_none s : (~ exists a b, s = a +++ old +++ b) -> replaced old new s s
| rp_first a r r' : (forall a' b', a +++ old +++ r = a' +++ old +++ b' -> String.length a <= String.length a') ->
    replaced old new r r' -> replaced old new (a +++ old +++ r) (a +++ new +++ r').
(** [t] is [s] without the items of the query that end in [=] *)
Definition stripped (s t : string) : Prop :=
  exists path items kept, target s path items /\ without (fun x => exists b, x = b +++ "=") items kept /\ target t path kept.

Section Shown.
Context (dec_text : decimal -> string) (pretty_text : value -> string) (status_text : Z -> string)
  (date : string -> string -> string).

(** the text of a value within a line: strings and numbers; nothing for any other *)
Inductive shown : value -> string -> Prop :=
| sh_string s : shown (VPStr s) s
| sh_number d : shown (VDec d) (dec_text d)
| sh_other v : (forall s, v <> VPStr s) -> (forall d, v <> VDec d) -> shown v "".

Definition in_line (p : paramspec) : Prop := ps_path p = true \/ ps_query p <> "".
Definition in_header (p : paramspec) : Prop := ~ in_line p /\ ps_header p <> "".
Definition name_of (p : paramspec) : string := fd_name (ps_field p).

(** the parameters that satisfy [P], as headers *)
Inductive header_params (P : paramspec -> Prop) (l : list (string * value)) : list paramspec -> list (string * string) -> Prop :=
| hp_nil : header_params P l [] []
| hp_skip p ps hs : ~ P p -> header_params P l ps hs -> header_params P l (p :: ps) hs
| hp_in p ps hs v t : P p -> entry l (name_of p) v -> shown v t -> header_params P l ps hs ->
    header_params P l (p :: ps) ((ps_header p, t) :: hs).
(** the variables of the path replaced, one input after the other *)
Inductive put_in (l : list (string * value)) : list paramspec -> string -> string -> Prop :=
| pi_nil s : put_in l [] s s
| pi_skip p ps s s' : ~ in_line p -> put_in l ps s s' -> put_in l (p :: ps) s s'
| pi_in p ps v t s s1 s' : in_line p -> entry l (name_of p) v -> shown v t ->
    replaced ("{" +++ name_of p +++ "}") t s s1 -> put_in l ps s1 s' -> put_in l (p :: ps) s s'.
(** the body: the last parameter that is one *)
Definition body_param (P : paramspec -> Prop) (l : list (string * value)) (ps : list paramspec) (b : string) : Prop :=
  (none P ps /\ b = "") \/ exists p v, last_that P ps p /\ entry l (name_of p) v /\ b = pretty_text v.

Definition request_shown (h : httpdef) (l : list (string * value)) (m : message) : Prop :=
  (exists s t, put_in l (h_inputs h) (h_path h) s /\ stripped s t /\ ms_start m = h_method h +++ " " +++ t +++ " HTTP/1.1")
  /\ (exists hs, header_params in_header l (h_inputs h) hs /\ ms_headers m = hs ++ [("Accept", "application/json")])
  /\ body_param body_input l (h_inputs h) (ms_body m).

Definition status_line (status : Z) (s : string) : Prop :=
  exists d, numeral d status /\ s = "HTTP/1.1 " +++ d +++ " " +++ status_text status.
Definition json_type : string * string := ("Content-Type", "application/json; charset=utf-8").
Definition message_with (status : Z) (hs : list (string * string)) (m : message) : Prop :=
  status_line status (ms_start m)
  /\ exists v, numeral v (Z.of_nat (String.length (ms_body m))) /\ ms_headers m = ("Content-Length", v) :: json_type :: hs.

(** the answer of an action, with the values [l], when no exception is involved *)
Definition response_shown (h : httpdef) (name : string) (x : expectedspec) (l : list (string * value)) (m : message) : Prop :=
  (exists hs, header_params (fun p => ps_header p <> "") l (xp_outputs x) hs
     /\ message_with (xp_status x) (hs ++ [("Date", date (h_name h) name)]) m)
  /\ (xp_status x = 204%Z -> ms_body m = "")
  /\ (xp_status x <> 204%Z -> body_param body_output l (xp_outputs x) (ms_body m)).
(** the answer when there is an exception *)
Definition exception_shown (h : httpdef) (name : string) (e : exceptionspec) (l : list (string * value)) (m : message) : Prop :=
  message_with (xc_status e) [("Date", date (h_name h) name)] m /\ ms_body m = pretty_text (VMap l).

Definition answer_shown (h : httpdef) (name : string) (exs : list exampledef) (a : option message) : Prop :=
  match a with
  | None => forall ex, In ex exs -> ~ answer_named h name ex
  | Some m =>
      exists ex l x, last_that (answer_named h name) exs ex /\ ex_example ex = VMap l /\ h_expected h = Some x
      /\ (((forall ex, In ex exs -> ~ failure_named h name ex) /\ response_shown h name x l m)
          \/ exists ex' e, last_that (failure_named h name) exs ex' /\ for_exception h ex' e /\ exception_shown h name e l m)
  end.
(** an exchange of the trace of an action *)
Definition exchange_shown (h : httpdef) (exs : list exampledef) (x : exchange) : Prop :=
  (exists ex l, last_that (request_named h (xg_name x)) exs ex /\ ex_example ex = VMap l /\ request_shown h l (xg_request x))
  /\ answer_shown h (xg_name x) exs (xg_response x).
Definition action_shown (exs : list exampledef) (h : httpdef) (xs : list exchange) : Prop :=
  NoDup (map xg_name xs)
  /\ (forall n, In n (map xg_name xs) <-> exists ex, In ex exs /\ request_named h n ex)
  /\ Forall (exchange_shown h exs) xs.
End Shown.

(** ** When there is no trace *)
Definition not_object (ex : exampledef) : Prop := forall l, ex_example ex <> VMap l.
Definition untraceable (exs : list exampledef) (h : httpdef) : Prop :=
  (exists ex, In ex exs /\ for_request h ex /\ not_object ex)
  \/ (exists ex ex', In ex exs /\ for_request h ex /\ In ex' exs /\ answer_named h (ex_name ex) ex'
        /\ (not_object ex' \/ h_expected h = None)).

(** ** Filling in a template *)
(** every variable in braces replaced by its value at once *)
Inductive filled (val : string -> string) : string -> string -> Prop :=
| fl_end a : no_char "{" a -> filled val a a
| fl_var a n r r' : no_char "{" a -> no_char "{" n -> no_char "}" n -> filled val r r' ->
    filled val (a +++ "{" +++ n +++ "}" +++ r) (a +++ val n +++ r').
(** an item [k={n}] of a query and what it is to become *)
Definition item_text (kn : string * string) : string := fst kn +++ "={" +++ snd kn +++ "}".
Definition item_value (val : string -> string) (kn : string * string) : string := fst kn +++ "=" +++ val (snd kn).
Definition item_ok (kn : string * string) : Prop :=
  (no_char "{" (fst kn) /\ no_char "&" (fst kn) /\ no_char "=" (fst kn)) /\ no_char "{" (snd kn) /\ no_char "}" (snd kn).
(** [val] gives the text of every input that goes into the request line, and leaves a variable that is no input as it is *)
Definition values_for (dec_text : decimal -> string) (ins : list paramspec) (l : list (string * value)) (val : string -> string) : Prop :=
  (forall p v, In p ins -> in_line p -> entry l (name_of p) v -> shown dec_text v (val (name_of p)))
  /\ (forall n, (forall p, In p ins -> in_line p -> name_of p <> n) -> val n = "{" +++ n +++ "}").
Definition plain_lines (ins : list paramspec) (val : string -> string) : Prop :=
  forall p, In p ins -> in_line p -> no_char "{" (name_of p) /\ no_char "}" (name_of p) /\ no_char "{" (val (name_of p)).

(** a name that can stand in front of the colon of a header line *)
Definition header_name (k : string) : Prop := k <> "" /\ no_char ":" k /\ no_char "010" k.
