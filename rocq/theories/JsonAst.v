(** The JSON form of a model: the json tags of schema.go:25-145, Pretty (misc.go:94-103) as ExportFiles uses it
    (cmd/sadl/export.go:30-32) and LoadModel (parser.go:21-35).  JSON texts are modelled as trees: that
    encoding/json reads the tree it has written is assumed (strings are valid UTF-8).  Keys are matched exactly,
    not up to letter case, and of two equal keys the first counts; a number is its value, so 5.0, which Go refuses
    for an integer, is not told from 5.  Extensions (model.go:14) are not modelled. *)
From Verif Require Import GoStr Outcome Value Schema Time Model.

Inductive json :=
| JNull
| JBool (b : bool)
| JNum (d : decimal)      (* an infinity is not a number of JSON *)
| JStr (s : string)
| JArr (l : list json)
| JObj (l : list (string * json)).

(** ** Writing *)
(** Keys with what is written for them; [None] is a field left out by omitempty *)
Definition blocks := list (string * option json).
Fixpoint entries (bl : blocks) : list (string * json) :=
  match bl with
  | [] => []
  | (k, Some j) :: r => (k, j) :: entries r
  | (_, None) :: r => entries r
  end.
Definition w_str (s : string) : option json := if s =?s "" then None else Some (JStr s).
Definition w_list {A} (f : A -> json) (l : list A) : option json :=
  match l with [] => None | _ => Some (JArr (map f l)) end.
Definition w_int (o : option Z) : option json := option_map (fun z => JNum (dec_of_Z z)) o.
Definition w_dec (o : option decimal) : option json := option_map JNum o.
Definition w_annos (l : annos) : option json :=
  match l with [] => None | _ => Some (JObj (map (fun kv => (fst kv, JStr (snd kv))) l)) end.

(** encoding/json on the dynamic values of this code base; decimal.go:17-20, timestamp.go:23-25 *)
Fixpoint w_value (v : value) : json :=
  match v with
  | VNil => JNull
  | VBool b | VPBool b => JBool b
  | VStr s | VPStr s | VUuid s => JStr s
  | VDec d | VDecV d | VFloat64 d => JNum d
  | VTime t => JStr (ts_string t)
  | VInt z | VInt32 z => JNum (dec_of_Z z)
  | VArr l => JArr (map w_value l)
  | VMap l => JObj (map (fun kv => match kv with (k, x) => (k, w_value x) end) l)
  end.
Definition w_any (v : value) : option json := match v with VNil => None | _ => Some (w_value v) end.

(** schema.go:64-68 *)
Definition w_element (e : enumelt) : json :=
  JObj (entries [("symbol", Some (JStr (ee_symbol e))); ("comment", w_str (ee_comment e)); ("annotations", w_annos (ee_annos e))]).
(** schema.go:39-55; 70-77 and 79-84 for the fields and variants inside *)
Fixpoint w_spec (ts : typespec) : blocks :=
  match ts with
  | mkTS t p vs mns mxs fs els mn mx it k vars u w r =>
      [("type", Some (JStr t)); ("pattern", w_str p);
       ("values", match vs with Some (v :: l) => Some (JArr (map JStr (v :: l))) | _ => None end);
       ("minSize", w_int mns); ("maxSize", w_int mxs);
       ("fields", w_list (fun f => match f with mkField n c a rq d s =>
          JObj (entries ([("name", Some (JStr n)); ("comment", w_str c); ("annotations", w_annos a);
                          ("required", if rq then Some (JBool true) else None); ("default", w_any d)] ++ w_spec s)) end) fs);
       ("elements", w_list w_element els); ("min", w_dec mn); ("max", w_dec mx); ("items", w_str it); ("keys", w_str k);
       ("variants", w_list (fun v => match v with mkVariant n c a s =>
          JObj (entries ([("name", Some (JStr n)); ("comment", w_str c); ("annotations", w_annos a)] ++ w_spec s)) end) vars);
       ("unit", w_str u); ("value", w_str w); ("reference", w_str r)]
  end.
(** schema.go:70-77 *)
Definition w_field (f : fielddef) : blocks :=
  [("name", Some (JStr (fd_name f))); ("comment", w_str (fd_comment f)); ("annotations", w_annos (fd_annos f));
   ("required", if fd_required f then Some (JBool true) else None); ("default", w_any (fd_default f))] ++ w_spec (fd_spec f).
(** schema.go:57-62 *)
Definition w_typedef (td : typedef) : json :=
  JObj (entries ([("name", Some (JStr (td_name td))); ("comment", w_str (td_comment td)); ("annotations", w_annos (td_annos td))]
                 ++ w_spec (td_spec td))).
(** schema.go:86-92 *)
Definition w_example (e : exampledef) : json :=
  JObj (entries [("target", Some (JStr (ex_target e))); ("name", w_str (ex_name e)); ("example", w_any (ex_example e));
                 ("comment", w_str (ex_comment e)); ("annotations", w_annos (ex_annos e))]).
(** schema.go:107-112 *)
Definition w_output (o : opoutput) : json :=
  JObj (entries ([("name", Some (JStr (oo_name o))); ("comment", w_str (oo_comment o)); ("annotations", w_annos (oo_annos o))]
                 ++ w_spec (oo_spec o))).
(** schema.go:94-105 *)
Definition w_op (o : opdef) : json :=
  JObj (entries [("name", w_str (op_name o)); ("comment", w_str (op_comment o)); ("annotations", w_annos (op_annos o));
                 ("inputs", w_list (fun f => JObj (entries (w_field f))) (op_inputs o));
                 ("outputs", w_list w_output (op_outputs o)); ("exceptions", w_list JStr (op_exceptions o))]).
(** schema.go:126-131 *)
Definition w_param (p : paramspec) : json :=
  JObj (entries ([("header", w_str (ps_header p)); ("query", w_str (ps_query p));
                  ("path", if ps_path p then Some (JBool true) else None)] ++ w_field (ps_field p))).
(** schema.go:133-138, 140-145 *)
Definition w_expected (e : expectedspec) : json :=
  JObj (entries [("outputs", w_list w_param (xp_outputs e)); ("status", Some (JNum (dec_of_Z (xp_status e))));
                 ("comment", w_str (xp_comment e)); ("annotations", w_annos (xp_annos e))]).
Definition w_exception (e : exceptionspec) : json :=
  JObj (entries [("type", Some (JStr (xc_type e))); ("status", Some (JNum (dec_of_Z (xc_status e))));
                 ("comment", w_str (xc_comment e)); ("annotations", w_annos (xc_annos e))]).
(** schema.go:114-124 *)
Definition w_http (h : httpdef) : json :=
  JObj (entries [("name", w_str (h_name h)); ("resource", w_str (h_resource h)); ("comment", w_str (h_comment h));
                 ("annotations", w_annos (h_annos h)); ("method", Some (JStr (h_method h))); ("path", Some (JStr (h_path h)));
                 ("inputs", w_list w_param (h_inputs h)); ("expected", option_map w_expected (h_expected h));
                 ("exceptions", w_list w_exception (h_exceptions h))]).
(** schema.go:25-37, model.go:12-17 *)
Definition w_schema (s : schema) : json :=
  JObj (entries [("sadl", Some (JStr (sc_sadl s))); ("name", Some (JStr (sc_name s))); ("namespace", w_str (sc_namespace s));
                 ("version", w_str (sc_version s)); ("comment", w_str (sc_comment s)); ("types", w_list w_typedef (sc_types s));
                 ("examples", w_list w_example (sc_examples s)); ("operations", w_list w_op (sc_operations s));
                 ("http", w_list w_http (sc_http s)); ("base", w_str (sc_base s)); ("annotations", w_annos (sc_annos s))]).
(** every number in it is one *)
Fixpoint finite (j : json) : bool :=
  match j with
  | JNum (DInf _) => false
  | JArr l => forallb finite l
  | JObj l => forallb (fun kv => match kv with (_, x) => finite x end) l
  | _ => true
  end.
(** misc.go:94-103: [None] is the text of fmt.Sprint, which is not JSON *)
Definition pretty (m : model) : option json :=
  let j := w_schema (m_schema m) in if finite j then Some j else None.

(** ** Reading *)
Section Read.
(** [f64 d]: what a JSON number becomes in an interface{}, [None] beyond the range of float64.  [num d]: what
    ParseDecimal reads from the text of a number (decimal.go:22-38), a function of the number here. *)
Context (f64 : decimal -> option decimal) (num : decimal -> decimal).

Definition at_key {B} (k : string) (f : json -> B) (d : B) : list (string * json) -> B :=
  fix go (l : list (string * json)) : B :=
    match l with
    | [] => d
    | (k', v) :: r => if k =?s k' then f v else go r
    end.
Definition each {A} (f : json -> result unit A) : list json -> result unit (list A) :=
  fix go (l : list json) : result unit (list A) :=
    match l with
    | [] => Ok []
    | j :: r => x <- f j ;; xs <- go r ;; Ok (x :: xs)
    end.
Definition r_list {A} (f : json -> result unit A) (j : json) : result unit (list A) :=
  match j with JNull => Ok [] | JArr l => each f l | _ => Err tt end.
Definition r_str (j : json) : result unit string := match j with JStr s => Ok s | JNull => Ok "" | _ => Err tt end.
Definition r_bool (j : json) : result unit bool := match j with JBool b => Ok b | JNull => Ok false | _ => Err tt end.
(** the integer a number is *)
Definition whole (d : decimal) : option Z :=
  match d with
  | DFin m e => if (0 <=? e)%Z then Some (m * 2 ^ e)%Z
                else if (m mod 2 ^ (- e) =? 0)%Z then Some (m / 2 ^ (- e))%Z else None
  | DInf _ => None
  end.
(** within the range of an integer of so many bits *)
Definition r_int (bits : Z) (j : json) : result unit (option Z) :=
  match j with
  | JNull => Ok None
  | JNum d => match whole d with
              | Some z => if ((- 2 ^ (bits - 1) <=? z) && (z <? 2 ^ (bits - 1)))%Z then Ok (Some z) else Err tt
              | None => Err tt
              end
  | _ => Err tt
  end.
Definition r_status (j : json) : result unit Z := o <- r_int 32 j ;; Ok (match o with Some z => z | None => 0%Z end).
Definition r_dec (j : json) : result unit (option decimal) :=
  match j with JNull => Ok None | JNum d => Ok (Some (num d)) | _ => Err tt end.
Definition r_values (j : json) : result unit (option (list string)) :=
  match j with JNull => Ok None | JArr l => x <- each r_str l ;; Ok (Some x) | _ => Err tt end.
Fixpoint r_pairs (l : list (string * json)) : result unit annos :=
  match l with
  | [] => Ok []
  | (k, j) :: r => s <- r_str j ;; rest <- r_pairs r ;; Ok ((k, s) :: rest)
  end.
Definition r_annos (j : json) : result unit annos :=
  match j with JNull => Ok [] | JObj l => r_pairs l | _ => Err tt end.
(** into an interface{} *)
Fixpoint r_value (j : json) : result unit value :=
  match j with
  | JNull => Ok VNil
  | JBool b => Ok (VBool b)
  | JNum d => match f64 d with Some x => Ok (VFloat64 x) | None => Err tt end
  | JStr s => Ok (VStr s)
  | JArr l => x <- each r_value l ;; Ok (VArr x)
  | JObj l =>
      x <- (fix go (l : list (string * json)) : result unit (list (string * value)) :=
              match l with
              | [] => Ok []
              | (k, j) :: r => v <- r_value j ;; rest <- go r ;; Ok ((k, v) :: rest)
              end) l ;;
      Ok (VMap x)
  end.
Definition str_at k l := at_key k r_str (Ok "") l.
Definition annos_at l := at_key "annotations" r_annos (Ok []) l.

(** an element of a list of pointers.  [null] gives a nil pointer, which is modelled for types and actions only
    (below); inside any other list it counts as an error here. *)
Definition r_obj {A} (f : list (string * json) -> result unit A) (j : json) : result unit A :=
  match j with JObj l => f l | _ => Err tt end.
Definition r_element : json -> result unit enumelt := r_obj (fun l =>
  s <- str_at "symbol" l ;; c <- str_at "comment" l ;; a <- annos_at l ;; Ok (mkElt s c a)).
(** schema.go:39-55, read from the object the TypeSpec is embedded in *)
Fixpoint r_spec (j : json) : result unit typespec :=
  match j with
  | JObj l =>
      t <- str_at "type" l ;; p <- str_at "pattern" l ;;
      vs <- at_key "values" r_values (Ok None) l ;;
      mns <- at_key "minSize" (r_int 64) (Ok None) l ;; mxs <- at_key "maxSize" (r_int 64) (Ok None) l ;;
      fs <- at_key "fields" (r_list (fun x =>
              s <- r_spec x ;;
              r_obj (fun l' =>
                n <- str_at "name" l' ;; c <- str_at "comment" l' ;; a <- annos_at l' ;;
                rq <- at_key "required" r_bool (Ok false) l' ;; d <- at_key "default" r_value (Ok VNil) l' ;;
                Ok (mkField n c a rq d s)) x)) (Ok []) l ;;
      els <- at_key "elements" (r_list r_element) (Ok []) l ;;
      mn <- at_key "min" r_dec (Ok None) l ;; mx <- at_key "max" r_dec (Ok None) l ;;
      it <- str_at "items" l ;; k <- str_at "keys" l ;;
      vars <- at_key "variants" (r_list (fun x =>
              s <- r_spec x ;;
              r_obj (fun l' =>
                n <- str_at "name" l' ;; c <- str_at "comment" l' ;; a <- annos_at l' ;; Ok (mkVariant n c a s)) x)) (Ok []) l ;;
      u <- str_at "unit" l ;; w <- str_at "value" l ;; r <- str_at "reference" l ;;
      Ok (mkTS t p vs mns mxs fs els mn mx it k vars u w r)
  | _ => Err tt
  end.
Definition r_field (j : json) : result unit fielddef :=
  s <- r_spec j ;;
  r_obj (fun l =>
    n <- str_at "name" l ;; c <- str_at "comment" l ;; a <- annos_at l ;;
    rq <- at_key "required" r_bool (Ok false) l ;; d <- at_key "default" r_value (Ok VNil) l ;;
    Ok (mkField n c a rq d s)) j.
Definition r_typedef (j : json) : result unit typedef :=
  s <- r_spec j ;;
  r_obj (fun l => n <- str_at "name" l ;; c <- str_at "comment" l ;; a <- annos_at l ;; Ok (mkTD n c a s)) j.
Definition r_example : json -> result unit exampledef := r_obj (fun l =>
  t <- str_at "target" l ;; n <- str_at "name" l ;; e <- at_key "example" r_value (Ok VNil) l ;;
  c <- str_at "comment" l ;; a <- annos_at l ;; Ok (mkEx t n e c a)).
Definition r_output (j : json) : result unit opoutput :=
  s <- r_spec j ;;
  r_obj (fun l => n <- str_at "name" l ;; c <- str_at "comment" l ;; a <- annos_at l ;; Ok (mkOut n c a s)) j.
Definition r_op : json -> result unit opdef := r_obj (fun l =>
  n <- str_at "name" l ;; c <- str_at "comment" l ;; a <- annos_at l ;;
  ins <- at_key "inputs" (r_list r_field) (Ok []) l ;; outs <- at_key "outputs" (r_list r_output) (Ok []) l ;;
  xs <- at_key "exceptions" (r_list r_str) (Ok []) l ;; Ok (mkOp n c a ins outs xs)).
Definition r_param (j : json) : result unit paramspec :=
  f <- r_field j ;;
  r_obj (fun l =>
    h <- str_at "header" l ;; q <- str_at "query" l ;; p <- at_key "path" r_bool (Ok false) l ;; Ok (mkParam h q p f)) j.
Definition r_expected : json -> result unit expectedspec := r_obj (fun l =>
  outs <- at_key "outputs" (r_list r_param) (Ok []) l ;; st <- at_key "status" r_status (Ok 0%Z) l ;;
  c <- str_at "comment" l ;; a <- annos_at l ;; Ok (mkExp outs st c a)).
Definition r_exception : json -> result unit exceptionspec := r_obj (fun l =>
  t <- str_at "type" l ;; st <- at_key "status" r_status (Ok 0%Z) l ;;
  c <- str_at "comment" l ;; a <- annos_at l ;; Ok (mkExc t st c a)).
Definition r_option {A} (f : json -> result unit A) (j : json) : result unit (option A) :=
  match j with JNull => Ok None | _ => x <- f j ;; Ok (Some x) end.
Definition r_http : json -> result unit httpdef := r_obj (fun l =>
  n <- str_at "name" l ;; rz <- str_at "resource" l ;; c <- str_at "comment" l ;; a <- annos_at l ;;
  m <- str_at "method" l ;; p <- str_at "path" l ;;
  ins <- at_key "inputs" (r_list r_param) (Ok []) l ;; e <- at_key "expected" (r_option r_expected) (Ok None) l ;;
  xs <- at_key "exceptions" (r_list r_exception) (Ok []) l ;; Ok (mkHttp n rz c a m p ins e xs)).

(** what stands before the first nil, and whether there is one *)
Fixpoint up_to_nil {A} (l : list (option A)) : list A * bool :=
  match l with
  | [] => ([], false)
  | None :: _ => ([], true)
  | Some x :: r => let '(a, b) := up_to_nil r in (x :: a, b)
  end.
(** parser.go:21-35 after the file has been read; NewModel (model.go:19-42) dereferences every type and then
    every action *)
Definition load_model (text : option json) : result unit model :=
  match text with
  | Some (JObj l) =>
      sadl <- str_at "sadl" l ;; name <- str_at "name" l ;; ns <- str_at "namespace" l ;; v <- str_at "version" l ;;
      c <- str_at "comment" l ;;
      tds <- at_key "types" (r_list (r_option r_typedef)) (Ok []) l ;;
      exs <- at_key "examples" (r_list r_example) (Ok []) l ;;
      ops <- at_key "operations" (r_list r_op) (Ok []) l ;;
      hs <- at_key "http" (r_list (r_option r_http)) (Ok []) l ;;
      base <- str_at "base" l ;; a <- annos_at l ;;
      if sadl =?s "" then Err tt
      else
        let '(tds', tnil) := up_to_nil tds in
        let '(hs', hnil) := if tnil then ([], false) else up_to_nil hs in
        match new_model (mkSchema sadl name ns v c tds' exs ops hs' base a) with
        | Ok m => if tnil || hnil then Panic else Ok m
        | _ => Err tt
        end
  | _ => Err tt     (* no JSON; null leaves the version empty; anything else does not fit a Schema *)
  end.
End Read.
