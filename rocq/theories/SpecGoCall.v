(** What the generated Go server and client do when they run: the parts of net/http, net/url, strconv and gorilla/mux that they use. *)
From Verif Require Import GoStr Value Schema Scalars SpecTime SpecMisc SpecModel SpecPV SpecTrace SpecGo SpecGoServer SpecGoClient.
Local Open Scope Z_scope.
Local Open Scope bool_scope.

(** ** Values of the fields of a request *)
Inductive rvalue := RText (s : string) | RInt (z : Z) | RTime (t : option timestamp).

(** strconv.ParseInt with base 10 and 64 bits *)
Definition int_text (s : string) (z : Z) : Prop :=
  exists d n, digits d n /\ (((s = d \/ s = "+" +++ d) /\ z = n) \/ (s = "-" +++ d /\ z = - n)).
Definition int64 (z : Z) : Prop := - 2 ^ 63 <= z < 2 ^ 63.
(** the conversion of an integer to a type of [w] bits *)
Definition in_bits (w z : Z) : Prop := - 2 ^ (w - 1) <= z < 2 ^ (w - 1).
Definition wraps (w i z : Z) : Prop := in_bits w z /\ exists k, i = z + k * 2 ^ w.
Definition widths : list (string * Z) := [("Int8", 8); ("Int16", 16); ("Int32", 32); ("Int64", 64)].

(** ** A request as a handler sees it *)
(** decoded pairs of the query, headers by name (empty if absent) *)
Record request := mkRq { rq_query : list (string * string); rq_header : string -> string; rq_vars : list (string * string) }.
Definition got (l : list (string * string)) (k v : string) : Prop :=
  (exists a b, l = (a ++ (k, v) :: b)%list /\ ~ In k (map fst a)) \/ (~ In k (map fst l) /\ v = "").

Section Running.
(** [instant s t]: ParseTimestamp gives [t] for [s] *)
Context (instant : string -> timestamp -> Prop) (sch : schema).

(** *** The generated code: stringParam, timestampParam, intParam and the conversions around them *)
Definition sourced (rq : request) (s : source) (text : string) : Prop :=
  match s with
  | FromQuery l => exists k, literal l k /\ got (rq_query rq) k text
  | FromHeader l => exists k, literal l k /\ text = rq_header rq k
  | FromPath l => exists k, literal l k /\ got (rq_vars rq) k text
  end.
Inductive gives (f : fielddef) (text : string) : convert -> rvalue -> Prop :=
| gv_text w d : text <> "" -> gives f text (AsText w d) (RText text)
| gv_no_text w d s : text = "" -> literal d s -> gives f text (AsText w d) (RText s)
| gv_time t : text <> "" -> instant text t -> gives f text (AsTime None) (RTime (Some t))
| gv_no_time : (text = "" \/ forall t, ~ instant text t) -> gives f text (AsTime None) (RTime None)
| gv_int w d i ts b v : int_text text i -> int64 i -> defines sch (ts_type (fd_spec f)) ts -> In (ts_type ts, b) widths -> wraps b i v ->
    gives f text (AsInt (Some w) d) (RInt v)
| gv_no_int w d i ts b v : (forall j, int_text text j -> ~ int64 j) -> numeral d i -> defines sch (ts_type (fd_spec f)) ts -> In (ts_type ts, b) widths ->
    wraps b i v -> gives f text (AsInt (Some w) d) (RInt v).
(** the value that a handler puts into the field of an input *)
Definition receives (rq : request) (p : paramspec) (i : input) (v : rvalue) : Prop :=
  match i with Value_ _ s c => exists text, sourced rq s text /\ gives (ps_field p) text c v | Body_ _ => False end.

(** *** What it should be *)
(** the text of an input in the place that is declared for it *)
Inductive placed (rq : request) (p : paramspec) (text : string) : Prop :=
| pl_query : ps_query p <> "" -> got (rq_query rq) (ps_query p) text -> placed rq p text
| pl_header : ps_query p = "" -> ps_header p <> "" -> text = rq_header rq (ps_header p) -> placed rq p text
| pl_path : ps_query p = "" -> ps_header p = "" -> ps_path p = true -> got (rq_vars rq) (fd_name (ps_field p)) text -> placed rq p text.
(** the value that a text stands for in a type *)
Inductive stands (n text : string) : rvalue -> Prop :=
| sd_text ts : text <> "" -> defines sch n ts -> In (ts_type ts) ["String"; "UUID"] -> stands n text (RText text)
| sd_time ts t : text <> "" -> defines sch n ts -> ts_type ts = "Timestamp" -> instant text t -> stands n text (RTime (Some t))
| sd_int ts b z : defines sch n ts -> In (ts_type ts, b) widths -> int_text text z -> in_bits b z -> stands n text (RInt z).
(** the value that a declared default stands for; without one, the zero value of the type *)
Inductive declared_default (f : fielddef) : rvalue -> Prop :=
| dd_text ts s : defines sch (ts_type (fd_spec f)) ts -> In (ts_type ts) ["String"; "UUID"] ->
    (fd_default f = VStr s \/ fd_default f = VPStr s \/ (fd_default f = VNil /\ s = "")) -> declared_default f (RText s)
| dd_no_time ts : defines sch (ts_type (fd_spec f)) ts -> ts_type ts = "Timestamp" -> fd_default f = VNil -> declared_default f (RTime None)
| dd_int ts b z : defines sch (ts_type (fd_spec f)) ts -> In (ts_type ts, b) widths -> in_bits b z ->
    ((exists m e, fd_default f = VDec (DFin m e) /\ ((0 <= e /\ z = m * 2 ^ e) \/ (e < 0 /\ m = z * 2 ^ (- e)))) \/ (fd_default f = VNil /\ z = 0)) ->
    declared_default f (RInt z).

(** ** A call of the client *)
(** the values of the fields of the request of a call *)
Definition call := string -> rvalue.
Definition zero_value (z : string) (v : rvalue) : Prop := (z = """""" /\ v = RText "") \/ (z = "0" /\ v = RInt 0).
Inductive printed : string -> rvalue -> string -> Prop :=
| pr_text s : printed "%s" (RText s) s
| pr_int z s : numeral s z -> printed "%d" (RInt z) s.
Inductive arguments (a : call) : list cquery -> list string -> Prop :=
| ag_nil : arguments a [] []
| ag_zero q qs l : zero_value (cq_zero q) (a (cq_field q)) -> arguments a qs l -> arguments a (q :: qs) l
| ag_put q qs l s : ~ zero_value (cq_zero q) (a (cq_field q)) -> printed (cq_verb q) (a (cq_field q)) s -> arguments a qs l ->
    arguments a (q :: qs) ((cq_key q +++ "=" +++ s) :: l).
(** the address, without the part that names the server *)
Definition address (c : cmethod) (a : call) (u : string) : Prop :=
  exists l, arguments a (cm_query c) l /\ u = cm_route c +++ match l with [] => "" | _ => "?" +++ String.concat "&" l end.
End Running.

(** ** How a server reads an address *)
Definition hex_value (c : ascii) : option nat :=
  let n := nat_of_ascii c in
  (if (48 <=? n) && (n <=? 57) then Some (n - 48) else if (65 <=? n) && (n <=? 70) then Some (n - 55)
   else if (97 <=? n) && (n <=? 102) then Some (n - 87) else None)%nat.
(** percent signs, and in a query plus signs, are decoded *)
Fixpoint decode (query : bool) (s : string) : option string :=
  match s with
  | EmptyString => Some ""
  | String c r =>
      if Ascii.eqb c "%" then
        match r with
        | String a (String b r') =>
            match hex_value a, hex_value b, decode query r' with
            | Some i, Some j, Some t => Some (String (ascii_of_nat (16 * i + j)) t)
            | _, _, _ => None
            end
        | _ => None
        end
      else option_map (String (if query && Ascii.eqb c "+" then " "%char else c)) (decode query r)
  end.
(** the text in front of the first [c], and the text behind it if there is one *)
Fixpoint cut_at (c : ascii) (s : string) : string * option string :=
  match s with
  | EmptyString => ("", None)
  | String d r => if Ascii.eqb d c then ("", Some r) else let (a, b) := cut_at c r in (String d a, b)
  end.
Fixpoint pieces (c : ascii) (s : string) : list string :=
  match s with
  | EmptyString => [""]
  | String d r =>
      if Ascii.eqb d c then "" :: pieces c r
      else match pieces c r with p :: ps => String d p :: ps | [] => [String d ""] end
  end.
Definition pair_of (s : string) : option (string * string) :=
  let (k, v) := cut_at "=" s in
  match decode true k, decode true (match v with Some v => v | None => "" end) with Some k, Some v => Some (k, v) | _, _ => None end.
(** pairs that cannot be read are an error for ParseForm *)
Fixpoint pairs_of (l : list string) : option (list (string * string)) :=
  match l with
  | [] => Some []
  | s :: r => if s =?s "" then pairs_of r else match pair_of s, pairs_of r with Some p, Some ps => Some (p :: ps) | _, _ => None end
  end.
(** the path and the pairs of the query *)
Definition read_address (u : string) : option (string * list (string * string)) :=
  let (p, q) := cut_at "?" (fst (cut_at "#" u)) in
  match decode false p, pairs_of (pieces "&" (match q with Some q => q | None => "" end)) with Some p, Some l => Some (p, l) | _, _ => None end.

(** ** Routes (gorilla/mux) *)
(** [fits route path vars]; variables with a pattern of their own ([{name:pattern}]) are left out *)
Inductive fits : string -> string -> list (string * string) -> Prop :=
| fi_end : fits "" "" []
| fi_char c r p vs : c <> "{"%char -> c <> "}"%char -> fits r p vs -> fits (String c r) (String c p) vs
| fi_var n v r p vs : n <> "" -> no_char "{" n -> no_char "}" n -> no_char ":" n -> v <> "" -> no_char "/" v -> fits r p vs ->
    fits ("{" +++ n +++ "}" +++ r) (v +++ p) ((n, v) :: vs).
(** a route with a variable twice is refused when it is registered *)
Definition accepted (r p : string) (vs : list (string * string)) : Prop := fits r p vs /\ NoDup (map fst vs).
(** the first route with the method of the request that accepts the path *)
Definition reaches (ks : list handler) (method path : string) (i : nat) : Prop :=
  exists k vs, nth_error ks i = Some k /\ hd_method k = method /\ accepted (hd_route k) path vs
  /\ forall j k' vs', (j < i)%nat -> nth_error ks j = Some k' -> hd_method k' = method -> ~ accepted (hd_route k') path vs'.
(** routes made of fixed segments and segments that are a variable *)
Inductive segment := Fixed (s : string) | Var (n : string).
Definition segment_text (s : segment) : string := match s with Fixed s => s | Var n => "{" +++ n +++ "}" end.
Definition segment_ok (s : segment) : Prop :=
  match s with
  | Fixed s => no_char "/" s /\ no_char "{" s /\ no_char "}" s
  | Var n => n <> "" /\ no_char "/" n /\ no_char "{" n /\ no_char "}" n /\ no_char ":" n
  end.
Definition segments_text (l : list segment) : string := each (fun s => "/" +++ segment_text s) l.
Definition vars_of (l : list segment) : list string := flat_map (fun s => match s with Var n => [n] | Fixed _ => [] end) l.
Definition segmented (h : httpdef) (l : list segment) : Prop :=
  path_part (h_path h) (segments_text l) /\ Forall segment_ok l /\ NoDup (vars_of l).
(** some path fits both *)
Definition meet (s t : segment) : Prop :=
  match s, t with Fixed a, Fixed b => a = b | Fixed a, Var _ => a <> "" | Var _, Fixed b => b <> "" | Var _, Var _ => True end.
Definition overlap (l m : list segment) : Prop := Forall2 meet l m.

(** ** Calls that can be carried *)
(** the characters that stand for themselves in an address: letters, digits and [-_.~] *)
Definition unreserved (c : ascii) : bool :=
  let n := nat_of_ascii c in
  ((48 <=? n) && (n <=? 57) || (65 <=? n) && (n <=? 90) || (97 <=? n) && (n <=? 122) || (n =? 45) || (n =? 46) || (n =? 95) || (n =? 126))%nat.
Fixpoint plain (s : string) : Prop := match s with EmptyString => True | String c r => unreserved c = true /\ plain r end.
Section Carried.
Context (sch : schema).
(** a query input that has the name of its parameter *)
Definition same_key (p : paramspec) : Prop := ps_query p = fd_name (ps_field p) /\ plain (ps_query p).
(** a value of the type of an input, texts of plain characters only *)
Inductive carries (n : string) : rvalue -> Prop :=
| ca_text ts s : defines sch n ts -> ts_type ts = "String" -> plain s -> carries n (RText s)
| ca_int ts b z : defines sch n ts -> In (ts_type ts, b) widths -> in_bits b z -> carries n (RInt z).
Definition zero_call (v : rvalue) : Prop := v = RText "" \/ v = RInt 0.
(** the query inputs of an action, the values of a call in them *)
Definition carried (h : httpdef) (a : call) : Prop :=
  (forall p, In p (h_inputs h) -> ps_query p <> "" -> same_key p
     /\ forall f, large_first (fd_name (ps_field p)) f -> carries (ts_type (fd_spec (ps_field p))) (a f))
  /\ NoDup (flat_map (fun p => if ps_query p =?s "" then [] else [ps_query p]) (h_inputs h)).
End Carried.

(** ** Answers *)
Inductive outcome := Good | Raised (type : string) | Unknown.
(** the status with which a handler answers an error of a Go type: the first case, or 500 *)
Definition answered (k : handler) (t : string) (z : Z) : Prop :=
  (exists a s b, hd_exceptions k = (a ++ (t, s) :: b)%list /\ ~ In t (map fst a) /\ numeral s z)
  \/ (~ In t (map fst (hd_exceptions k)) /\ z = 500).
(** what a method makes of a status *)
Definition understood (c : cmethod) (z : Z) (o : outcome) : Prop :=
  (numeral (cm_status c) z /\ o = Good)
  \/ (~ numeral (cm_status c) z
      /\ ((exists a t s b, cm_exceptions c = (a ++ (t, s) :: b)%list /\ numeral s z /\ (forall t' s', In (t', s') a -> ~ numeral s' z) /\ o = Raised t)
          \/ ((forall t s, In (t, s) (cm_exceptions c) -> ~ numeral s z) /\ o = Unknown))).
(** no status twice, as Go demands of the cases of a switch *)
Definition statuses (h : httpdef) : list Z := (match h_expected h with Some x => [xp_status x] | None => [] end ++ map xc_status (h_exceptions h))%list.
Definition cases_ok (c : cmethod) : Prop :=
  forall a s b t d, (cm_status c :: map snd (cm_exceptions c) = a ++ s :: b ++ t :: d)%list -> forall z, numeral s z -> ~ numeral t z.
