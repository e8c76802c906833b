(** openapi/import_openapi.go: the examples taken over from the schemas of a document. *)
From Verif Require Import GoStr Outcome Value Schema Misc Model OpenApi OpenApiImport.

(** model.go: a schema with its example ([None]: nil); [head] has the other fields, its items and properties are not used *)
Inductive oasx := mkX (head : oas) (ex : option value) (items : option oasx) (props : option (list (string * oasx))).
Definition x_head (x : oasx) : oas := match x with mkX h _ _ _ => h end.
(** the schema without its examples, as it is in OpenApi.v *)
Fixpoint bare (x : oasx) : oas :=
  match x with
  | mkX h _ i ps =>
      mkOas (o_ref h) (o_type h) (o_format h) (o_desc h) (o_pattern h) (o_min h) (o_max h) (o_minlen h) (o_maxlen h) (o_enum h)
        (option_map bare i) (o_addl h) (option_map (map (fun nx => (fst nx, bare (snd nx)))) ps) (o_required h) (o_oneof h)
  end.
Definition bare_all (ss : list (string * oasx)) : list (string * oas) := map (fun nx => (fst nx, bare (snd nx))) ss.

(** import_openapi.go:238-369: the examples that convertOasType adds; what it returns is [convert_oas] of [bare] *)
Fixpoint collect (name : string) (x : oasx) : list exampledef :=
  match x with
  | mkX h ex i ps =>
      match ex with Some v => [mkEx name "" v "" []] | None => [] end
      ++ (if o_type h =?s "array" then
            match i with
            | Some y => if negb (o_ref (x_head y) =?s "") then [] else collect (name +++ ".Items") y
            | None => []
            end
          else if (o_type h =?s "") || (o_type h =?s "object") then
            match ps with
            | Some l => flat_map (fun nx => if negb (oas_type_ref (x_head (snd nx)) =?s "") then [] else collect (name +++ "." +++ fst nx) (snd nx)) l
            | None => []
            end
          else [])
  end.
(** import_openapi.go:144-174 and 212, for the schemas of the components; those in the responses of actions (549, 563) are below *)
Fixpoint import_examples (all ss : list (string * oasx)) : result unit (list exampledef) :=
  match ss with
  | [] => Ok []
  | (n, x) :: r =>
      let name := valid_sadl_name n (x_head x) in
      if name =?s "" then import_examples all r
      else
        let t := oas_type_ref (x_head x) in
        es <- (if negb (t =?s "") then match get t all with Some d => Ok (collect t d) | None => Panic end else Ok (collect name x)) ;;
        rest <- import_examples all r ;;
        Ok (es ++ rest)
  end.
(** import_openapi.go:536-569: the examples taken from the response that an action expects; [hs]: the schemas of its headers, [body]: that
    of its JSON content.  Their order does not matter; references have none.  The other responses (573-605) give none. *)
Definition response_examples (op : string) (hs : list (string * oasx)) (body : option oasx) : list exampledef :=
  flat_map (fun hx => if negb (o_ref (x_head (snd hx)) =?s "") then []
                      else collect (op +++ ".Expected." +++ make_identifier (strip_x (fst hx))) (snd hx)) hs
  ++ match body with
     | Some y => if negb (o_ref (x_head y) =?s "") then [] else collect (op +++ ".Expected.payload") y
     | None => []
     end.
