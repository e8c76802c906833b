(** A concrete schema and environment, used by the examples beside the property theorems. *)
From Verif Require Import GoStr Outcome Value Schema Scalars Time Model SpecTime SpecModel.

(** A toy environment: a pattern matches only its own text; a few numerals are known. *)
Definition demo_ext : ext := mkExt
  (fun p => if p =?s "[" then None else Some (fun s => s =?s p))
  (fun s => if s =?s "100" then Some (DFin 100 0)
            else if s =?s "5" then Some (DFin 5 0)
            else if s =?s "1.5" then Some (DFin 3 (-1)) else None)
  true true.

Definition elt (s : string) : enumelt := mkElt s "" [].
Definition fld (n : string) (req : bool) (ts : typespec) : fielddef := mkField n "" [] req VNil ts.
Definition tdef (n : string) (ts : typespec) : typedef := mkTD n "" [] ts.

Definition ts_struct (fs : list fielddef) : typespec :=
  mkTS "Struct" "" None None None fs [] None None "" "" [] "" "" "".
Definition ts_enum (l : list string) : typespec :=
  mkTS "Enum" "" None None None [] (map elt l) None None "" "" [] "" "" "".
Definition ts_array (items : string) (lo hi : option Z) : typespec :=
  mkTS "Array" "" None lo hi [] [] None None items "" [] "" "" "".
Definition ts_map (k items : string) : typespec :=
  mkTS "Map" "" None None None [] [] None None items k [] "" "" "".
Definition ts_unitvalue (v u : string) : typespec :=
  mkTS "UnitValue" "" None None None [] [] None None "" "" [] u v "".
Definition ts_str (p : string) (vs : option (list string)) : typespec :=
  mkTS "String" p vs None None [] [] None None "" "" [] "" "" "".
Definition ts_num (t : string) (lo hi : option decimal) : typespec :=
  mkTS t "" None None None [] [] lo hi "" "" [] "" "" "".

Definition demo_types : list typedef :=
  [ tdef "Color" (ts_enum ["red"; "green"]);
    tdef "Point" (ts_struct [fld "x" true (ts_of "Decimal"); fld "y" false (ts_of "Coord")]);
    tdef "Coord" (ts_num "Decimal" (Some (DFin 0 0)) (Some (DFin 10 0)));
    tdef "Points" (ts_array "Point" None (Some 2%Z));
    tdef "Where" (ts_of "Spot");
    tdef "Spot" (ts_of "Point");
    tdef "Price" (ts_unitvalue "Decimal" "Currency");
    tdef "Currency" (ts_enum ["USD"; "EUR"]);
    tdef "ByColor" (ts_map "Color" "Point");
    tdef "Loop" (ts_of "Pool");
    tdef "Pool" (ts_of "Loop");
    tdef "Both" (ts_str "b" (Some ["a"; "b"]));
    tdef "Lost" (ts_of "Nowhere") ].
Definition demo_action : httpdef := mkHttp "getPoint" "" "" [] "GET" "/points" [] None [].
Definition demo_schema : schema := schema_of demo_types [demo_action].

Definition demo_model : model :=
  match new_model demo_schema with Ok m => m | _ => mkModel demo_schema [] [] end.
Lemma demo_model_ok : new_model demo_schema = Ok demo_model.
Proof. vm_compute. reflexivity. Qed.

Definition num (z : Z) : value := VDec (DFin z 0).
Definition demo_point : value := VMap [("y", num 7); ("x", num 3)].
Lemma demo_point_wf : vwf demo_point.
Proof.
  apply wf_map; [repeat constructor; simpl; intuition discriminate|].
  repeat constructor; discriminate.
Qed.
