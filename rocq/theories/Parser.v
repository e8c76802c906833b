(** parser.go: reading a file (everything before Validate). *)
From Verif Require Import GoStr Outcome Value Schema Scalars Time Model Misc ParserValidate Scan.

Definition is_type (t : ttype) (tok : token) : bool := teqb (tk_type tok) t.
Definition fail_eof {A} : prog A := Fail PEof.
Definition fail_syntax {A} : prog A := Fail PSyntax.

(** parser.go:1244-1257 assertIdentifier, ExpectIdentifier *)
Definition assert_identifier (t : option token) : prog string :=
  match t with
  | None => fail_eof
  | Some tok => if is_type SYMBOL tok then Ret (tk_text tok) else Fail PExpected
  end.
Definition expect_identifier : prog string := Get assert_identifier.
(** parser.go:1259-1278 ExpectCompoundIdentifier *)
Fixpoint expect_compound (fuel : nat) : prog string :=
  match fuel with
  | O => Spin
  | S f =>
      s <~ expect_identifier ;;
      Get (fun t => match t with
        | None => Ret s
        | Some tok =>
            if is_type DOT tok then ss <~ expect_compound f ;; Ret (s +++ "." +++ ss)
            else Unget (Ret s)
        end)
  end.
(** parser.go:1391-1400 expect *)
Definition expect (ty : ttype) : prog unit :=
  Get (fun t => match t with
    | None => fail_eof
    | Some tok => if is_type ty tok then Ret tt else Fail PExpected
    end).
(** parser.go:1280-1286 *)
Definition expect_equals_identifier : prog string := _ <~ expect EQUALS ;; expect_identifier.
(** parser.go:1288-1301 *)
Definition expect_string : prog string :=
  Get (fun t => match t with
    | None => fail_eof
    | Some tok => if is_type STRING tok then Ret (tk_text tok) else Fail PExpected
    end).
(** parser.go:1303-1309 *)
Definition expect_equals_string : prog string := _ <~ expect EQUALS ;; expect_string.
(** parser.go:1311-1320 *)
Definition expect_text : prog string :=
  Get (fun t => match t with
    | None => fail_eof
    | Some tok => if is_type SYMBOL tok || is_type STRING tok then Ret (tk_text tok) else Fail PExpected
    end).
(** parser.go:1322-1332 expectInt32, 1347-1357 expectInt64 *)
Definition expect_int (bits : Z) : prog Z :=
  Get (fun t => match t with
    | None => fail_eof
    | Some tok =>
        if is_type NUMBER tok
        then match parse_int bits (tk_text tok) with Some z => Ret z | None => Fail (PBad "number") end
        else Fail PExpected
    end).
(** parser.go:1359-1370 *)
Definition expect_equals_int64 : prog Z := _ <~ expect EQUALS ;; expect_int 64.

(** parser.go:2005-2021 EndOfStatement: the comment so far, and whether it ended without error *)
Definition end_of_statement' (fuel : nat) (comment : string) : prog (string * bool) :=
  loop fuel (fun c => Get (fun t => match t with
    | None => Ret (inr (c, true))
    | Some tok =>
        match tk_type tok with
        | SEMICOLON => Ret (inl c)
        | LINE_COMMENT => Ret (inl (merge_comment c (tk_text tok)))
        | NEWLINE => Ret (inr (c, true))
        | _ => Ret (inr (c, false))
        end
    end)) comment.
(** with the error returned *)
Definition end_of_statement (fuel : nat) (comment : string) : prog string :=
  '(c, ok) <~ end_of_statement' fuel comment ;;
  if ok : bool then Ret c else fail_syntax.
(** parser.go:2038-2048 *)
Definition parse_trailing_comment (comment : string) : prog string :=
  Get (fun t => match t with
    | None => Ret comment
    | Some tok => if is_type LINE_COMMENT tok then Ret (merge_comment comment (tk_text tok)) else Unget (Ret comment)
    end).
(** parser.go:847-871 IsBlockDone.  Both callers drop the error it returns at the end of the file. *)
Definition is_block_done (fuel : nat) (comment : string) : prog (bool * string) :=
  loop fuel (fun c => Get (fun t => match t with
    | None => Ret (inr (false, c))
    | Some tok =>
        match tk_type tok with
        | CLOSE_BRACE => Ret (inr (true, c))
        | LINE_COMMENT => Ret (inl (merge_comment c (tk_text tok)))
        | NEWLINE => Ret (inl c)
        | _ => Unget (Ret (inr (false, c)))
        end
    end)) comment.

(** parser.go:1428-1443 *)
Record options := mkOpts {
  o_required : bool; o_default : value; o_pattern : string; o_values : option (list string);
  o_minsize : option Z; o_maxsize : option Z; o_min : option decimal; o_max : option decimal;
  o_action : string; o_resource : string; o_header : string; o_reference : string; o_name : string;
  o_annos : annos }.
Definition no_options : options := mkOpts false VNil "" None None None None None "" "" "" "" "" [].

Definition set_opt_required (o : options) := mkOpts true (o_default o) (o_pattern o) (o_values o) (o_minsize o) (o_maxsize o) (o_min o) (o_max o) (o_action o) (o_resource o) (o_header o) (o_reference o) (o_name o) (o_annos o).
Definition set_opt_default v (o : options) := mkOpts (o_required o) v (o_pattern o) (o_values o) (o_minsize o) (o_maxsize o) (o_min o) (o_max o) (o_action o) (o_resource o) (o_header o) (o_reference o) (o_name o) (o_annos o).
Definition set_opt_pattern v (o : options) := mkOpts (o_required o) (o_default o) v (o_values o) (o_minsize o) (o_maxsize o) (o_min o) (o_max o) (o_action o) (o_resource o) (o_header o) (o_reference o) (o_name o) (o_annos o).
Definition set_opt_values v (o : options) := mkOpts (o_required o) (o_default o) (o_pattern o) v (o_minsize o) (o_maxsize o) (o_min o) (o_max o) (o_action o) (o_resource o) (o_header o) (o_reference o) (o_name o) (o_annos o).
Definition set_opt_minsize v (o : options) := mkOpts (o_required o) (o_default o) (o_pattern o) (o_values o) (Some v) (o_maxsize o) (o_min o) (o_max o) (o_action o) (o_resource o) (o_header o) (o_reference o) (o_name o) (o_annos o).
Definition set_opt_maxsize v (o : options) := mkOpts (o_required o) (o_default o) (o_pattern o) (o_values o) (o_minsize o) (Some v) (o_min o) (o_max o) (o_action o) (o_resource o) (o_header o) (o_reference o) (o_name o) (o_annos o).
Definition set_opt_min v (o : options) := mkOpts (o_required o) (o_default o) (o_pattern o) (o_values o) (o_minsize o) (o_maxsize o) (Some v) (o_max o) (o_action o) (o_resource o) (o_header o) (o_reference o) (o_name o) (o_annos o).
Definition set_opt_max v (o : options) := mkOpts (o_required o) (o_default o) (o_pattern o) (o_values o) (o_minsize o) (o_maxsize o) (o_min o) (Some v) (o_action o) (o_resource o) (o_header o) (o_reference o) (o_name o) (o_annos o).
Definition set_opt_action v (o : options) := mkOpts (o_required o) (o_default o) (o_pattern o) (o_values o) (o_minsize o) (o_maxsize o) (o_min o) (o_max o) v (o_resource o) (o_header o) (o_reference o) (o_name o) (o_annos o).
Definition set_opt_resource v (o : options) := mkOpts (o_required o) (o_default o) (o_pattern o) (o_values o) (o_minsize o) (o_maxsize o) (o_min o) (o_max o) (o_action o) v (o_header o) (o_reference o) (o_name o) (o_annos o).
Definition set_opt_header v (o : options) := mkOpts (o_required o) (o_default o) (o_pattern o) (o_values o) (o_minsize o) (o_maxsize o) (o_min o) (o_max o) (o_action o) (o_resource o) v (o_reference o) (o_name o) (o_annos o).
Definition set_opt_reference v (o : options) := mkOpts (o_required o) (o_default o) (o_pattern o) (o_values o) (o_minsize o) (o_maxsize o) (o_min o) (o_max o) (o_action o) (o_resource o) (o_header o) v (o_name o) (o_annos o).
Definition set_opt_name v (o : options) := mkOpts (o_required o) (o_default o) (o_pattern o) (o_values o) (o_minsize o) (o_maxsize o) (o_min o) (o_max o) (o_action o) (o_resource o) (o_header o) (o_reference o) v (o_annos o).
Definition set_opt_annos v (o : options) := mkOpts (o_required o) (o_default o) (o_pattern o) (o_values o) (o_minsize o) (o_maxsize o) (o_min o) (o_max o) (o_action o) (o_resource o) (o_header o) (o_reference o) (o_name o) v.

(** parser.go:1633-1667 expectEqualsStringArray; no values at all gives nil *)
Definition expect_equals_string_array (fuel : nat) : prog (option (list string)) :=
  Get (fun t => match t with
  | None => fail_eof
  | Some tok =>
      if is_type EQUALS tok then
        Get (fun t => match t with
        | None => fail_eof
        | Some tok =>
            if is_type OPEN_BRACKET tok then
              vs <~ loop fuel (fun vs => Get (fun t => match t with
                | None => fail_eof
                | Some tok =>
                    match tk_type tok with
                    | CLOSE_BRACKET => Ret (inr vs)
                    | STRING => Ret (inl (vs ++ [tk_text tok]))
                    | COMMA | NEWLINE => Ret (inl vs)
                    | _ => fail_syntax
                    end
                end)) [] ;;
              Ret (match vs with [] => None | _ => Some vs end)
            else fail_syntax
        end)
      else fail_syntax
  end).

(** parser.go:1558-1579 parseExtendedOption *)
Definition parse_extended_option (a : annos) (name : string) : prog annos :=
  Get (fun t => match t with
  | None => fail_eof
  | Some tok =>
      if is_type EQUALS tok then v <~ expect_string ;; Ret (assoc_set name v a)
      else Unget (Ret (assoc_set name "" a))
  end).

Section P.
Variable X : ext.

(** parser.go:1372-1389 *)
Definition expect_number : prog decimal :=
  Get (fun t => match t with
    | None => fail_eof
    | Some tok =>
        if is_type NUMBER tok
        then match x_decimal X (tk_text tok) with Some d => Ret d | None => Fail (PBad "number") end
        else Fail PExpected
    end).
Definition expect_equals_number : prog decimal := _ <~ expect EQUALS ;; expect_number.

(** parser.go:1819-1918, literals.  The results of a Go map are kept in the order of first insertion. *)
Definition parse_literal_symbol (s : string) : prog value :=
  if s =?s "true" then Ret (VBool true) else if s =?s "false" then Ret (VBool false)
  else if s =?s "null" then Ret VNil else Fail (PBad "symbol").
Definition parse_literal_string (s : string) : prog string :=
  match unquote s with Some q => Ret q | None => Fail (PBad "string") end.
Definition parse_literal_number (s : string) : prog value :=
  match x_decimal X s with Some d => Ret (VDec d) | None => Fail (PBad "number") end.
Fixpoint parse_literal (fuel : nat) (tok : token) : prog value :=
  match fuel with
  | O => Spin
  | S f =>
      match tk_type tok with
      | SYMBOL => parse_literal_symbol (tk_text tok)
      | STRING => s <~ parse_literal_string (tk_text tok) ;; Ret (VPStr s)
      | NUMBER => parse_literal_number (tk_text tok)
      | OPEN_BRACKET =>
          l <~ loop f (fun l => Get (fun t => match t with
            | None => fail_eof
            | Some tok =>
                match tk_type tok with
                | NEWLINE | COMMA => Ret (inl l)
                | CLOSE_BRACKET => Ret (inr l)
                | _ => v <~ parse_literal f tok ;; Ret (inl (l ++ [v]))
                end
            end)) [] ;;
          Ret (VArr l)
      | OPEN_BRACE =>
          l <~ loop f (fun l => Get (fun t => match t with
            | None => fail_eof
            | Some tok =>
                match tk_type tok with
                | CLOSE_BRACE => Ret (inr l)
                | STRING =>
                    k <~ parse_literal_string (tk_text tok) ;;
                    _ <~ expect COLON ;;
                    v <~ Get (fun t => match t with None => fail_syntax | Some tok => parse_literal f tok end) ;;
                    Ret (inl (assoc_set k v l))
                | SYMBOL => Fail (PBad "key")
                | _ => Ret (inl l)
                end
            end)) [] ;;
          Ret (VMap l)
      | _ => fail_syntax
      end
  end.
(** parser.go:1811-1817, 1803-1809 *)
Definition parse_literal_value (fuel : nat) : prog value :=
  Get (fun t => match t with None => fail_syntax | Some tok => parse_literal fuel tok end).
Definition parse_equals_literal (fuel : nat) : prog value :=
  _ <~ expect EQUALS ;; parse_literal_value fuel.

(** the switch of parser.go:1466-1495; [acceptable] has been checked *)
Definition parse_option (fuel : nat) (mtch : string) (o : options) : prog options :=
  if mtch =?s "min" then v <~ expect_equals_number ;; Ret (set_opt_min v o)
  else if mtch =?s "max" then v <~ expect_equals_number ;; Ret (set_opt_max v o)
  else if mtch =?s "minsize" then v <~ expect_equals_int64 ;; Ret (set_opt_minsize v o)
  else if mtch =?s "maxsize" then v <~ expect_equals_int64 ;; Ret (set_opt_maxsize v o)
  else if mtch =?s "pattern" then v <~ expect_equals_string ;; Ret (set_opt_pattern v o)
  else if mtch =?s "values" then v <~ expect_equals_string_array fuel ;; Ret (set_opt_values v o)
  else if mtch =?s "required" then Ret (set_opt_required o)
  else if mtch =?s "default" then v <~ parse_equals_literal fuel ;; Ret (set_opt_default v o)
  else if (mtch =?s "action") || (mtch =?s "operation") then v <~ expect_equals_identifier ;; Ret (set_opt_action v o)
  else if mtch =?s "resource" then v <~ expect_equals_identifier ;; Ret (set_opt_resource v o)
  else if mtch =?s "reference" then v <~ expect_equals_identifier ;; Ret (set_opt_reference v o)
  else if mtch =?s "header" then v <~ expect_equals_string ;; Ret (set_opt_header v o)
  else if mtch =?s "name" then v <~ expect_equals_identifier ;; Ret (set_opt_name v o)
  else Fail (PBad "option").
(** parser.go:1445-1512 ParseOptions *)
Definition parse_options (fuel : nat) (acceptable : list string) : prog options :=
  Get (fun t => match t with
  | None => Ret no_options
  | Some tok =>
      if is_type OPEN_PAREN tok then
        loop fuel (fun o => Get (fun t => match t with
          | None => fail_syntax
          | Some tok =>
              match tk_type tok with
              | CLOSE_PAREN => Ret (inr o)
              | SYMBOL =>
                  let mtch := to_lower (tk_text tok) in
                  o' <~ (if has_prefix "x_" mtch
                         then a <~ parse_extended_option (o_annos o) (tk_text tok) ;; Ret (set_opt_annos a o)
                         else if str_mem mtch acceptable then parse_option fuel mtch o
                         else Fail (PBad "option")) ;;
                  Ret (inl o')
              | COMMA => Ret (inl o)
              | _ => fail_syntax
              end
          end)) no_options
      else Unget (Ret no_options)
  end).

(** parser.go:1669-1702 parseEnumElementDef; [None] at the closing brace *)
Definition parse_enum_element (fuel : nat) : prog (option enumelt) :=
  r <~ loop fuel (fun c => Get (fun t => match t with
    | None => fail_eof
    | Some tok =>
        match tk_type tok with
        | CLOSE_BRACE => Ret (inr None)
        | LINE_COMMENT => Ret (inl (merge_comment c (tk_text tok)))
        | SEMICOLON | NEWLINE | COMMA => Ret (inl c)
        | _ => s <~ assert_identifier (Some tok) ;; Ret (inr (Some (s, c)))
        end
    end)) "" ;;
  match r with
  | None => Ret None
  | Some (s, c) =>
      o <~ parse_options fuel [] ;;
      c <~ parse_trailing_comment c ;;
      Ret (Some (mkElt s c (o_annos o)))
  end.

(** what ParseTypeSpecElements returns besides the error; [None] params or fields are nil *)
Record telems := mkTE {
  te_type : string; te_params : option (list string); te_fields : option (list fielddef);
  te_elements : list enumelt; te_options : options; te_comment : string }.

(** parser.go:1920-1931, 1972-1986, 1988-2003 *)
Definition array_params (ps : list string) : prog string :=
  match ps with [] => Ret "Any" | [a] => Ret a | _ => fail_syntax end.
Definition map_params (ps : list string) : prog (string * string) :=
  match ps with [] => Ret ("String", "Any") | [k; i] => Ret (k, i) | _ => fail_syntax end.
Definition unit_params (ps : list string) : prog (string * string) :=
  match ps with [] => Ret ("Decimal", "String") | [v; u] => Ret (v, u) | _ => fail_syntax end.
Definition opt_list {A} (o : option (list A)) : list A := match o with Some l => l | None => [] end.

(** parser.go:953-987 ParseTypeSpec, after ParseTypeSpecElements *)
Definition type_spec_of (te : telems) : prog typespec :=
  let ps := opt_list (te_params te) in
  let mk items keys value unit :=
    mkTS (te_type te) "" None None None (opt_list (te_fields te)) (te_elements te) None None items keys [] unit value "" in
  if (te_type te =?s "Array") || (te_type te =?s "List") then i <~ array_params ps ;; Ret (mk i "" "" "")
  else if te_type te =?s "Map" then '(k, i) <~ map_params ps ;; Ret (mk i k "" "")
  else if te_type te =?s "UnitValue" then '(v, u) <~ unit_params ps ;; Ret (mk "" "" v u)
  else match ps with [] => Ret (mk "" "" "" "") | _ => fail_syntax end.
Definition parse_type_spec (elems : prog telems) (comment : string) : prog (typespec * options * string) :=
  te <~ elems ;;
  ts <~ type_spec_of te ;;
  Ret (ts, te_options te, merge_comment comment (te_comment te)).

(** parser.go:1773-1801 parseStructFieldOptions *)
Definition field_acceptable (t : string) : list string :=
  (if t =?s "String" then ["pattern"; "values"; "minsize"; "maxsize"; "reference"]
   else if t =?s "UUID" then ["reference"]
   else if str_mem t numeric_types then ["min"; "max"]
   else if str_mem t ["Bytes"; "Array"; "Map"] then ["minsize"; "maxsize"]
   else []) ++ ["required"; "default"].
Definition with_options (ts : typespec) (o : options) : typespec :=
  mkTS (ts_type ts) (o_pattern o) (o_values o) (o_minsize o) (o_maxsize o) (ts_fields ts) (ts_elements ts)
    (o_min o) (o_max o) (ts_items ts) (ts_keys ts) (ts_variants ts) (ts_unit ts) (ts_value ts) (o_reference o).
Definition merge_annos (a b : annos) : annos := fold_left (fun acc kv => assoc_set (fst kv) (snd kv) acc) b a.

(** parser.go:1716-1771 parseStructFieldDef; [None] at the closing brace.  The error of
    EndOfStatement (1769) is dropped.  A later comment line replaces an earlier one (1726). *)
Definition parse_struct_field (fuel : nat) (elems : prog telems) : prog (option fielddef) :=
  r <~ loop fuel (fun c => Get (fun t => match t with
    | None => fail_eof
    | Some tok =>
        match tk_type tok with
        | CLOSE_BRACE => Ret (inr None)
        | LINE_COMMENT => Ret (inl (merge_comment "" (tk_text tok)))
        | NEWLINE => Ret (inl c)
        | _ => Unget (Ret (inr (Some c)))
        end
    end)) "" ;;
  match r with
  | None => Ret None
  | Some c =>
      name <~ expect_identifier ;;
      '(ts, fopts, fc) <~ parse_type_spec elems c ;;
      let c := merge_comment c fc in
      o <~ parse_options fuel (field_acceptable (ts_type ts)) ;;
      '(c, _) <~ end_of_statement' fuel c ;;
      Ret (Some (mkField name c (merge_annos (o_annos o) (o_annos fopts)) (o_required o) (o_default o) (with_options ts o)))
  end.

(** parser.go:999-1030 *)
Definition parse_angle (fuel : nat) (name : string) : prog telems :=
  let go (ty : string) (expected : option nat) :=
    loop fuel (fun ps => Get (fun t => match t with
      | None => fail_eof
      | Some tok =>
          match tk_type tok with
          | COMMA => Ret (inl ps)
          | CLOSE_ANGLE =>
              if match expected with Some n => negb (n =? length ps)%nat | None => false end then fail_syntax
              else Ret (inr (mkTE ty (match ps with [] => None | _ => Some ps end) None [] no_options ""))
          | SYMBOL => Ret (inl (ps ++ [tk_text tok]))
          | _ => fail_syntax
          end
      end)) [] in
  if (name =?s "Array") || (name =?s "List") then go "Array" (Some 1)
  else if (name =?s "Map") || (name =?s "UnitValue") then go name (Some 2)
  else if name =?s "Union" then go name None
  else fail_syntax.

(** parser.go:1043-1091: what stands between the braces.  The error of EndOfStatement
    is dropped and the token it ended with is pushed back. *)
Definition brace_intro : prog unit :=
  Get (fun t => match t with
    | None => fail_syntax
    | Some tok => if is_type NEWLINE tok then Ret tt else Unget (Ret tt)
    end).
Definition collect {A} (fuel : nat) (item : prog (option A)) : prog (list A) :=
  loop fuel (fun l => x <~ item ;; Ret (match x with None => inr l | Some a => inl (l ++ [a]) end)) [].
Definition some_list {A} (l : list A) : option (list A) := match l with [] => None | _ => Some l end.

(** parser.go:989-1096 ParseTypeSpecElements *)
Fixpoint type_spec_elements (fuel : nat) : prog telems :=
  match fuel with
  | O => Spin
  | S f =>
      name <~ expect_identifier ;;
      let plain o := Ret (mkTE name None None [] o "") in
      Get (fun t => match t with
      | None => plain no_options
      | Some tok =>
          if is_type OPEN_ANGLE tok then parse_angle f name
          else if str_mem name ["Struct"; "Enum"; "Union"] then
            '(tok, o) <~ (if is_type OPEN_BRACE tok then Ret (tok, no_options)
                          else Unget (o <~ parse_options f [] ;;
                                      Get (fun t => match t with None => fail_eof | Some tok => Ret (tok, o) end))) ;;
            if is_type OPEN_BRACE tok then
              c <~ parse_trailing_comment "" ;;
              _ <~ brace_intro ;;
              if name =?s "Enum" then
                els <~ collect f (parse_enum_element f) ;;
                '(c, _) <~ end_of_statement' f c ;;
                Unget (Ret (mkTE name None None els o c))
              else
                fs <~ collect f (parse_struct_field f (type_spec_elements f)) ;;
                '(c, _) <~ end_of_statement' f c ;;
                Unget (Ret (mkTE name None (some_list fs) [] o c))
            else Unget (plain o)
          else Unget (plain no_options)
      end)
  end.

(** ** Directives *)
Definition regex_uuid : string := "([a-f0-9]{8}(-[a-f0-9]{4}){4}[a-f0-9]{8})".

(** parser.go:1413-1426 parseTypeOptions: the options for the new type; the annotations come with them *)
Definition type_options (fuel : nat) (acceptable : list string) (ts : typespec) : prog (typespec * annos) :=
  o <~ parse_options fuel acceptable ;; Ret (with_options ts o, o_annos o).
(** the common shape of the functions of parser.go:1098-1229 *)
Definition simple_def (fuel : nat) (acceptable : list string) (name comment : string) (ts : typespec) : prog typedef :=
  '(ts, a) <~ type_options fuel acceptable ts ;;
  c <~ end_of_statement fuel comment ;;
  Ret (mkTD name c a ts).
Definition ts_items_keys (t items keys value unit : string) : typespec :=
  mkTS t "" None None None [] [] None None items keys [] unit value "".
Definition variant_of (n t : string) : variantdef := mkVariant n "" [] (ts_of t).

(** parser.go:897-951 parseTypeDirective *)
Definition parse_type_directive (fuel : nat) (comment : string) : prog typedef :=
  name <~ expect_identifier ;;
  te <~ type_spec_elements fuel ;;
  let c := merge_comment comment (te_comment te) in
  let t := te_type te in
  let ps := opt_list (te_params te) in
  if str_mem t ["Any"; "Bool"; "Timestamp"] then simple_def fuel [] name c (ts_of t)
  else if str_mem t numeric_types then simple_def fuel ["min"; "max"] name c (ts_of t)
  else if t =?s "Bytes" then simple_def fuel ["minsize"; "maxsize"] name c (ts_of t)
  else if t =?s "String" then
    td <~ simple_def fuel ["minsize"; "maxsize"; "pattern"; "values"; "reference"] name c (ts_of t) ;;
    let ts := td_spec td in
    Ret (if ts_pattern ts =?s regex_uuid
         then mkTD name (td_comment td) (td_annos td)
                (mkTS "UUID" "" (ts_values ts) (ts_minsize ts) (ts_maxsize ts) [] [] None None "" "" [] "" "" (ts_reference ts))
         else td)
  else if t =?s "UUID" then simple_def fuel ["reference"] name c (ts_of t)
  else if t =?s "UnitValue" then
    '(ts, a) <~ type_options fuel [] (ts_of t) ;;
    '(v, u) <~ unit_params ps ;;
    c <~ end_of_statement fuel c ;;
    Ret (mkTD name c a (ts_items_keys t "" "" v u))
  else if (t =?s "Array") || (t =?s "List") then
    i <~ array_params ps ;;
    simple_def fuel ["minsize"; "maxsize"] name c (ts_items_keys t i "" "" "")
  else if t =?s "Map" then
    '(k, i) <~ map_params ps ;;
    simple_def fuel ["minsize"; "maxsize"] name c (ts_items_keys t i k "" "")
  else if t =?s "Struct" then
    _ <~ parse_options fuel [] ;;
    Ret (mkTD name c (o_annos (te_options te))
      (mkTS t "" None None None (opt_list (te_fields te)) [] None None "" "" [] "" "" ""))
  else if t =?s "Enum" then
    Ret (mkTD name c (o_annos (te_options te)) (mkTS t "" None None None [] (te_elements te) None None "" "" [] "" "" ""))
  else if t =?s "Union" then
    '(_, a) <~ type_options fuel [] (ts_of t) ;;
    vs <~ match te_params te, te_fields te with
          | Some ps, _ => Ret (map (fun v => variant_of v v) ps)
          | None, Some fs => Ret (map (fun f => variant_of (fd_name f) (ts_type (fd_spec f))) fs)
          | None, None => fail_syntax
          end ;;
    c <~ end_of_statement fuel c ;;
    Ret (mkTD name c a (mkTS t "" None None None [] [] None None "" "" vs "" "" ""))
  else Fail (PBad "supertype").

(** parser.go:873-895 parseExampleDirective *)
Definition parse_example_directive (fuel : nat) (comment : string) : prog exampledef :=
  target <~ expect_compound fuel ;;
  o <~ parse_options fuel ["name"] ;;
  v <~ parse_literal_value fuel ;;
  Ret (mkEx target (o_name o) v comment []).

(** parser.go:246-272 parseNamespaceDirective, without the comment *)
Definition parse_namespace (fuel : nat) : prog string :=
  t <~ expect_text ;;
  loop fuel (fun ns => Get (fun t => match t with
    | None => Ret (inr ns)
    | Some tok =>
        if is_type DOT tok then txt <~ expect_text ;; Ret (inl (ns +++ "." +++ txt))
        else Unget (Ret (inr ns))
    end)) t.
(** parser.go:283-296 parseVersionDirective *)
Definition parse_version : prog string :=
  Get (fun t => match t with
    | None => fail_eof
    | Some tok => match tk_type tok with NUMBER | SYMBOL | STRING => Ret (tk_text tok) | _ => Fail (PBad "version") end
    end).
(** parser.go:298-308 parseBaseDirective *)
Definition parse_base : prog string :=
  b <~ expect_string ;;
  if negb (b =?s "") && negb (has_prefix "/" b) then Fail (PBad "base") else Ret b.
(** parser.go:1515-1547 parseStringToEndOfLine: value and comment *)
Definition parse_string_to_eol : prog (string * string) :=
  let newline val com (t : option token) : prog (string * string) :=
    match t with
    | None => Ret (val, com)
    | Some tok => if is_type NEWLINE tok then Ret (val, com) else fail_syntax
    end in
  let comment val (t : option token) : prog (string * string) :=
    match t with
    | None => Ret (val, "")
    | Some tok => if is_type LINE_COMMENT tok then Get (newline val (tk_text tok)) else newline val "" t
    end in
  let val (tok : token) : prog (string * string) :=
    if is_type STRING tok then Get (comment (tk_text tok)) else comment "" (Some tok) in
  Get (fun t => match t with
    | None => Ret ("", "")
    | Some tok =>
        if is_type EQUALS tok then Get (fun t => match t with None => fail_eof | Some tok => val tok end)
        else val tok
    end).

(** ** Operations *)
(** parser.go:410-460 parseOperationInputs, 462-497 parseOperationOutputs, 499-524
    parseOperationExceptions: the loop around the entries.  [tok.Type] on a nil token crashes. *)
Definition op_section {A} (fuel : nat) (entry : token -> prog A) : prog (list A) :=
  Get (fun t => match t with
  | None => Crash
  | Some tok =>
      if is_type OPEN_BRACE tok then
        Get (fun t => loop fuel (fun '((l, t) : list A * option token) =>
          match t with
          | None => Ret (inr [])     (* return nil, nil *)
          | Some tok =>
              match tk_type tok with
              | CLOSE_BRACE => Ret (inr l)
              | NEWLINE => Get (fun t => match t with None => fail_eof | Some _ => Ret (inl (l, t)) end)
              | _ => a <~ entry tok ;; Get (fun t => Ret (inl (l ++ [a], t)))
              end
          end) ([], t))
      else fail_syntax
  end).
(** [tok := p.GetToken(); if tok.Type != scanner.SYMBOL { return ... SyntaxError() }] *)
Definition op_symbol {A} (k : string -> prog A) : prog A :=
  Get (fun t => match t with
    | None => Crash
    | Some tok => if is_type SYMBOL tok then k (tk_text tok) else fail_syntax
    end).
Definition op_input (fuel : nat) (tok : token) : prog fielddef :=
  if negb (is_type SYMBOL tok) then fail_syntax
  else op_symbol (fun ty =>
    req <~ Get (fun t => match t with
      | None => Crash
      | Some tok =>
          if is_type OPEN_PAREN tok then
            loop fuel (fun req => Get (fun t => match t with
              | None => Crash
              | Some tok =>
                  match tk_type tok with
                  | CLOSE_PAREN => Ret (inr req)
                  | SYMBOL => if tk_text tok =?s "required" then Ret (inl true) else fail_syntax
                  | _ => Ret (inl req)
                  end
              end)) false
          else Unget (Ret false)
      end) ;;
    Ret (mkField (tk_text tok) "" [] req VNil (ts_of ty))).
Definition op_output (tok : token) : prog opoutput :=
  if negb (is_type SYMBOL tok) then fail_syntax
  else op_symbol (fun ty => Ret (mkOut (tk_text tok) "" [] (ts_of ty))).
Definition op_exception (tok : token) : prog string :=
  if negb (is_type SYMBOL tok) then fail_syntax else Ret (tk_text tok).

(** parser.go:358-408 parseOperationDirective.  The error of ParseOptions is overwritten (365-367);
    its nil result is dereferenced at the end. *)
Definition parse_operation_directive (fuel : nat) (comment : string) : prog opdef :=
  name <~ expect_identifier ;;
  o <~ try (parse_options fuel ["http"]) ;;
  _ <~ expect OPEN_BRACE ;;
  '(ins, outs, excs) <~ loop fuel (fun '((ins, outs, excs) : list fielddef * list opoutput * list string) =>
    Get (fun t => match t with
      | None => fail_eof
      | Some tok =>
          match tk_type tok with
          | CLOSE_BRACE => Ret (inr (ins, outs, excs))
          | SYMBOL =>
              if tk_text tok =?s "inputs" then i <~ op_section fuel (op_input fuel) ;; Ret (inl (i, outs, excs))
              else if tk_text tok =?s "outputs" then x <~ op_section fuel op_output ;; Ret (inl (ins, x, excs))
              else if tk_text tok =?s "exceptions" then x <~ op_section fuel op_exception ;; Ret (inl (ins, outs, x))
              else Fail (PBad "section")
          | _ => Ret (inl (ins, outs, excs))
          end
      end)) ([], [], []) ;;
  match o with
  | None => Crash
  | Some o => Ret (mkOp name comment (o_annos o) ins outs excs)
  end.

(** ** Http *)
Definition source_param (src : source) (f : fielddef) : paramspec :=
  match src with
  | FromHeader h => mkParam h "" false f
  | FromPath => mkParam "" "" true f
  | FromQuery k => mkParam "" k false f
  | FromBody => mkParam "" "" false f
  end.
(** parser.go:686-723, the part of parseHttpSpec for a parameter.  The [required] option is
    read and ignored; the error of EndOfStatement (694) is dropped; the default is recorded as
    given (the test of 703 compares an interface with a string and always holds). *)
Definition parse_http_param (fuel : nat) (path name comment : string) : prog paramspec :=
  '(ts, _, c) <~ parse_type_spec (type_spec_elements fuel) comment ;;
  o <~ parse_options fuel ["header"; "default"; "required"] ;;
  '(c, _) <~ end_of_statement' fuel c ;;
  Ret (source_param (parameter_source path name (o_header o))
         (mkField name c (o_annos o) false (o_default o) ts)).

Definition set_expected (h : httpdef) x := mkHttp (h_name h) (h_resource h) (h_comment h) (h_annos h) (h_method h) (h_path h) (h_inputs h) (Some x) (h_exceptions h).
Definition add_input (h : httpdef) p := mkHttp (h_name h) (h_resource h) (h_comment h) (h_annos h) (h_method h) (h_path h) (h_inputs h ++ [p]) (h_expected h) (h_exceptions h).
Definition add_exception (h : httpdef) e := mkHttp (h_name h) (h_resource h) (h_comment h) (h_annos h) (h_method h) (h_path h) (h_inputs h) (h_expected h) (h_exceptions h ++ [e]).
Definition set_http_comment (h : httpdef) c := mkHttp (h_name h) (h_resource h) c (h_annos h) (h_method h) (h_path h) (h_inputs h) (h_expected h) (h_exceptions h).

(** parser.go:725-774 parseHttpExpectedSpec.  Inside the braces parseHttpSpec is called with
    [top] false: [expect] and [except] are errors there (670-682). *)
Definition parse_http_expected (fuel : nat) (h : httpdef) (comment : string) : prog httpdef :=
  match h_expected h with
  | Some _ => Fail (PBad "second expect")
  | None =>
      status <~ expect_int 32 ;;
      o <~ parse_options fuel [] ;;
      '(outs, c) <~ Get (fun t => match t with
        | None => fail_eof
        | Some tok =>
            match tk_type tok with
            | OPEN_BRACE =>
                c <~ parse_trailing_comment comment ;;
                loop fuel (fun outs =>
                  '(done, c1) <~ is_block_done fuel "" ;;
                  if done : bool then Ret (inr (outs, merge_comment c c1))
                  else
                    name <~ expect_identifier ;;
                    if (name =?s "expect") || (name =?s "except") then fail_syntax
                    else p <~ parse_http_param fuel (h_path h) name c1 ;; Ret (inl (outs ++ [p]))) []
            | SYMBOL => Ret ([mkParam "" "" false (mkField "entity" "" [] false VNil (ts_of (tk_text tok)))], "")
            | _ => Unget (Ret ([], ""))
            end
        end) ;;
      c <~ end_of_statement fuel c ;;
      Ret (set_expected h (mkExp outs status c (o_annos o)))
  end.
(** parser.go:776-821 parseHttpExceptionSpec *)
Definition parse_http_exception (fuel : nat) (h : httpdef) (comment : string) : prog httpdef :=
  status <~ Get (fun t => match t with
    | None => fail_eof
    | Some tok => if is_type NUMBER tok then Unget (expect_int 32) else Unget (Ret 0%Z)
    end) ;;
  ty <~ expect_identifier ;;
  if str_mem ty (map xc_type (h_exceptions h)) then Fail (PDuplicate ty)
  else
    o <~ parse_options fuel [] ;;
    c <~ end_of_statement fuel comment ;;
    Ret (add_exception h (mkExc ty status c (o_annos o))).
(** parser.go:664-682 parseHttpSpec with [top] true *)
Definition parse_http_spec (fuel : nat) (h : httpdef) (comment : string) : prog httpdef :=
  name <~ expect_identifier ;;
  if name =?s "expect" then parse_http_expected fuel h comment
  else if name =?s "except" then parse_http_exception fuel h comment
  else p <~ parse_http_param fuel (h_path h) name comment ;; Ret (add_input h p).

(** parser.go:639-647 resourceName: the last path element without a variable *)
Definition resource_name (path : string) : string :=
  match find (fun e => negb (contains "{" e)) (rev (split "/" path)) with Some e => e | None => "" end.
(** parser.go:649-651 *)
Definition action_name (method resource : string) : string := to_lower method +++ capitalize resource.
(** parser.go:653-662, 610-618 ensureActionName, ensureResourceName; the error is dropped *)
Definition ensure_action_name (h : httpdef) : httpdef :=
  if h_name h =?s "" then
    let r := if h_resource h =?s "" then resource_name (h_path h) else h_resource h in
    mkHttp (if r =?s "" then "" else action_name (h_method h) r) r (h_comment h) (h_annos h) (h_method h) (h_path h)
      (h_inputs h) (h_expected h) (h_exceptions h)
  else h.
Definition http_methods : list string := ["POST"; "GET"; "PUT"; "DELETE"; "PATCH"; "HEAD"; "OPTIONS"].
(** parser.go:550-608 parseHttpDirective with an empty name; the error of EndOfStatement (600) is
    dropped, so is a comment just before the closing brace. *)
Definition parse_http_directive (fuel : nat) (comment : string) : prog httpdef :=
  sym <~ expect_identifier ;;
  let method := to_upper sym in
  if negb (str_mem method http_methods) then Fail (PBad "method")
  else
    path <~ expect_string ;;
    o <~ parse_options fuel ["action"; "operation"; "resource"] ;;
    Get (fun t => match t with
    | None => fail_eof
    | Some tok =>
        if is_type OPEN_BRACE tok then
          c <~ parse_trailing_comment comment ;;
          h <~ loop fuel (fun h =>
                 '(done, c1) <~ is_block_done fuel "" ;;
                 if done : bool then Ret (inr h)
                 else h' <~ parse_http_spec fuel h c1 ;; Ret (inl h'))
               (mkHttp (o_action o) (o_resource o) c (o_annos o) method path [] None []) ;;
          '(c, _) <~ end_of_statement' fuel (h_comment h) ;;
          Ret (ensure_required_params (ensure_action_name (set_http_comment h c)))
        else fail_syntax
    end).

(** ** Files *)
Definition set_types (s : schema) l := mkSchema (sc_sadl s) (sc_name s) (sc_namespace s) (sc_version s) (sc_comment s) l (sc_examples s) (sc_operations s) (sc_http s) (sc_base s) (sc_annos s).
Definition set_examples (s : schema) l := mkSchema (sc_sadl s) (sc_name s) (sc_namespace s) (sc_version s) (sc_comment s) (sc_types s) l (sc_operations s) (sc_http s) (sc_base s) (sc_annos s).
Definition set_operations (s : schema) l := mkSchema (sc_sadl s) (sc_name s) (sc_namespace s) (sc_version s) (sc_comment s) (sc_types s) (sc_examples s) l (sc_http s) (sc_base s) (sc_annos s).
Definition set_http (s : schema) l := mkSchema (sc_sadl s) (sc_name s) (sc_namespace s) (sc_version s) (sc_comment s) (sc_types s) (sc_examples s) (sc_operations s) l (sc_base s) (sc_annos s).
Definition set_comment (s : schema) c := mkSchema (sc_sadl s) (sc_name s) (sc_namespace s) (sc_version s) c (sc_types s) (sc_examples s) (sc_operations s) (sc_http s) (sc_base s) (sc_annos s).
Definition set_name (s : schema) n := mkSchema (sc_sadl s) n (sc_namespace s) (sc_version s) (sc_comment s) (sc_types s) (sc_examples s) (sc_operations s) (sc_http s) (sc_base s) (sc_annos s).
Definition set_namespace (s : schema) n := mkSchema (sc_sadl s) (sc_name s) n (sc_version s) (sc_comment s) (sc_types s) (sc_examples s) (sc_operations s) (sc_http s) (sc_base s) (sc_annos s).
Definition set_version (s : schema) n := mkSchema (sc_sadl s) (sc_name s) (sc_namespace s) n (sc_comment s) (sc_types s) (sc_examples s) (sc_operations s) (sc_http s) (sc_base s) (sc_annos s).
Definition set_base (s : schema) n := mkSchema (sc_sadl s) (sc_name s) (sc_namespace s) (sc_version s) (sc_comment s) (sc_types s) (sc_examples s) (sc_operations s) (sc_http s) n (sc_annos s).
Definition set_annos (s : schema) a := mkSchema (sc_sadl s) (sc_name s) (sc_namespace s) (sc_version s) (sc_comment s) (sc_types s) (sc_examples s) (sc_operations s) (sc_http s) (sc_base s) a.
Definition merge_sc_comment (s : schema) c := set_comment s (merge_comment (sc_comment s) c).

(** parser.go:318-356 addAnnotation, parseIncludeDirective, once the included file has been read: [inc] is its
    schema, [fname] its name.  Its examples, comment, name and so on are not taken over. *)
Definition mark (fname : string) (a : annos) : annos := assoc_set "x_include" fname a.
Definition mark_type fname (td : typedef) := mkTD (td_name td) (td_comment td) (mark fname (td_annos td)) (td_spec td).
Definition mark_http fname (h : httpdef) := mkHttp (h_name h) (h_resource h) (h_comment h) (mark fname (h_annos h)) (h_method h) (h_path h) (h_inputs h) (h_expected h) (h_exceptions h).
Definition mark_op fname (o : opdef) := mkOp (op_name o) (op_comment o) (mark fname (op_annos o)) (op_inputs o) (op_outputs o) (op_exceptions o).
Definition include_into (sch inc : schema) (fname : string) : prog schema :=
  match new_model sch with
  | Ok tmp =>
      if forallb (fun td => match find_type tmp (td_name td) with Some _ => false | None => true end) (sc_types inc)
      then Ret (set_operations (set_http (set_types sch
                  (sc_types sch ++ map (mark_type fname) (sc_types inc)))
                  (sc_http sch ++ map (mark_http fname) (sc_http inc)))
                  (sc_operations sch ++ map (mark_op fname) (sc_operations inc)))
      else Fail (PDuplicate fname)
  | _ => Fail PModel
  end.

(** What surrounds a file: the tokens of the files by name ([None]: unreadable), the
    configuration's name and namespace, the name a file gets from its path. *)
Record penv := mkEnv {
  e_files : string -> option (list token);
  e_name : string; e_namespace : string; e_base_name : string -> string; e_version : string }.
Variable E : penv.

(** parser.go:154-244 ParseNoValidate without extensions.  [incl] reads an included file.
    [comment] is merged and reset as in the loop. *)
Definition empty_schema (path : string) : schema :=
  mkSchema (e_version E) (if e_name E =?s "" then e_base_name E path else e_name E) (e_namespace E) "" "" [] [] [] [] "" [].
Definition directive (fuel : nat) (incl : string -> prog schema) (sch : schema) (comment kw : string) : prog schema :=
  if kw =?s "name" then n <~ expect_text ;; Ret (set_name (merge_sc_comment sch comment) n)
  else if kw =?s "namespace" then n <~ parse_namespace fuel ;; Ret (set_namespace (merge_sc_comment sch comment) n)
  else if kw =?s "version" then n <~ parse_version ;; Ret (set_version (merge_sc_comment sch comment) n)
  else if kw =?s "type" then td <~ parse_type_directive fuel comment ;; Ret (set_types sch (sc_types sch ++ [td]))
  else if kw =?s "example" then ex <~ parse_example_directive fuel comment ;; Ret (set_examples sch (sc_examples sch ++ [ex]))
  else if kw =?s "base" then b <~ parse_base ;; Ret (set_base (merge_sc_comment sch comment) b)
  else if kw =?s "operation" then op <~ parse_operation_directive fuel comment ;; Ret (set_operations sch (sc_operations sch ++ [op]))
  else if kw =?s "http" then h <~ parse_http_directive fuel comment ;; Ret (set_http sch (sc_http sch ++ [h]))
  else if kw =?s "include" then
    fname <~ expect_string ;;
    inc <~ incl fname ;;
    include_into (merge_sc_comment sch comment) inc fname
  else if has_prefix "x_" kw then
    '(v, c) <~ parse_string_to_eol ;;
    let sch := merge_sc_comment sch comment in
    Ret (merge_sc_comment (set_annos sch (assoc_set kw v (sc_annos sch))) c)
  else Ret sch.    (* an unknown word is skipped *)
Definition read_schema (fuel : nat) (incl : string -> prog schema) (path : string) : prog schema :=
  loop fuel (fun '((sch, comment) : schema * string) => Get (fun t => match t with
    | None => Ret (inr sch)
    | Some tok =>
        match tk_type tok with
        | SYMBOL => sch' <~ directive fuel incl sch comment (tk_text tok) ;; Ret (inl (sch', ""))
        | LINE_COMMENT => Ret (inl (sch, merge_comment comment (tk_text tok)))
        | SEMICOLON | NEWLINE => Ret (inl (sch, comment))
        | _ => Fail (PBad "directive")
        end
    end)) (empty_schema path, "").
(** A file becomes a model; [depth] bounds the nesting of includes (its exhaustion is [OutOfFuel]). *)
Definition read_tokens (incl : string -> prog schema) (path : string) (toks : list token) : result perror model :=
  match run (read_schema (S (S (length toks))) incl path) (start toks) with
  | Ok (sch, _) => match new_model sch with Ok m => Ok m | Err _ => Err PModel | Panic => Panic | OutOfFuel => OutOfFuel end
  | Err PDeep => OutOfFuel
  | Err e => Err e
  | Panic => Panic
  | OutOfFuel => OutOfFuel
  end.
Definition lift {A} (r : result perror A) : prog A :=
  match r with Ok a => Ret a | Err e => Fail e | Panic => Crash | OutOfFuel => Fail PDeep end.
Fixpoint read_file (depth : nat) (path : string) : result perror model :=
  match depth with
  | O => OutOfFuel
  | S d =>
      match e_files E path with
      | None => Err (PInclude path)
      | Some toks => read_tokens (fun f => m <~ lift (read_file d f) ;; Ret (m_schema m)) path toks
      end
  end.
(** parser.go:48-55, 146-152 ParseSadlString without validation: [path] is empty *)
Definition read_string (depth : nat) (toks : list token) : result perror model :=
  read_tokens (fun f => m <~ lift (read_file depth f) ;; Ret (m_schema m)) "" toks.

(** parser.go:13-19, 146-152: reading followed by Validate *)
Inductive parse_error := ReadError (e : perror) | CheckError (e : pverror).
Definition check (vfuel : nat) (r : result perror model) : result parse_error model :=
  match r with
  | Ok m =>
      match parser_validate X m vfuel with
      | Ok _ => Ok m | Err e => Err (CheckError e) | Panic => Panic | OutOfFuel => OutOfFuel
      end
  | Err e => Err (ReadError e)
  | Panic => Panic
  | OutOfFuel => OutOfFuel
  end.
Definition parse_sadl_string (depth vfuel : nat) (toks : list token) : result parse_error model :=
  check vfuel (read_string depth toks).
Definition parse_sadl_file (depth vfuel : nat) (path : string) : result parse_error model :=
  check vfuel (read_file depth path).
End P.
