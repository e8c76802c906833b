(** data.go and the [As*] helpers of struct_helpers.go.  A [*Data] is modelled as the value it
    holds; two [*Data] that share one Go map (GetData) are not modelled as sharing. *)
From Verif Require Import GoStr Value.

(** data.go:11-13.  [DNilMap] is an interface holding a nil [map[string]interface{}]: what
    DataFromFile and DataFromJsonString build from the text [null] (48, 60-63). *)
Inductive data :=
| DNil
| DNilMap
| DMap (l : list (string * value))
| DOther (v : value).   (* any other dynamic value *)

(** data.go:15-17, 19-21 *)
Definition as_data (v : value) : data :=
  match v with VNil => DNil | VMap l => DMap l | _ => DOther v end.
Definition new_data : data := DNil.

(** data.go:68-76 *)
Definition d_put (d : data) (k : string) (v : value) : data :=
  match d with
  | DNil => DMap [(k, v)]
  | DMap l => DMap (assoc_set k v l)
  | _ => d
  end.

(** data.go:103-117: the loop for zero or at least two keys *)
Fixpoint get_loop (l : list (string * value)) (ks : list string) : value :=
  match ks with
  | [] => VNil
  | k :: r =>
      match assoc k l with
      | Some v =>
          match r with
          | [] => v
          | _ :: _ => match v with VMap l' => get_loop l' r | _ => VNil end
          end
      | None => get_loop l r
      end
  end.

(** data.go:95-120 *)
Definition d_get (d : data) (ks : list string) : value :=
  match d with
  | DMap l =>
      match ks with
      | [k] => match assoc k l with Some v => v | None => VNil end
      | _ => get_loop l ks
      end
  | _ => VNil      (* a nil map has no keys *)
  end.

(** data.go:122-124 *)
Definition d_has (d : data) (ks : list string) : bool :=
  match d_get d ks with VNil => false | _ => true end.

(** struct_helpers.go:22-29, 31-38 *)
Definition as_map (v : value) : option (list (string * value)) :=
  match v with VMap l => Some l | _ => None end.
Definition as_array (v : value) : list value := match v with VArr l => l | _ => [] end.
(** struct_helpers.go:58-68 *)
Definition as_string (v : value) : string := match v with VStr s | VPStr s => s | _ => "" end.
(** struct_helpers.go:70-80 *)
Definition as_bool (v : value) : bool :=
  match v with
  | VNil => false
  | VBool b => b
  | VStr s => negb (s =?s "false")
  | _ => true
  end.
(** struct_helpers.go:82-92; [int(n)] of a float64 truncates toward zero (out of range is not modelled) *)
Definition as_int (v : value) : Z :=
  match v with
  | VFloat64 (DFin m e) => if (0 <=? e)%Z then (m * 2 ^ e)%Z else Z.quot m (2 ^ (- e))
  | VInt32 z | VInt z => z
  | _ => 0%Z
  end.
(** struct_helpers.go:40-56 AsStringArray *)
Fixpoint strings_of (l : list value) : option (list string) :=
  match l with
  | [] => Some []
  | v :: r => match v with
              | VStr s | VPStr s => option_map (cons s) (strings_of r)
              | _ => None
              end
  end.
Definition as_string_array (v : value) : list string :=
  match strings_of (as_array v) with Some l => l | None => [] end.
(** data.go:150-157 GetStringArray of Data: a non-string element becomes "" *)
Definition d_string_array (d : data) (ks : list string) : list string :=
  map as_string (as_array (d_get d ks)).

(** data.go:126-140 *)
Definition d_string (d : data) (ks : list string) : string := as_string (d_get d ks).
Definition d_bool (d : data) (ks : list string) : bool := as_bool (d_get d ks).
Definition d_int (d : data) (ks : list string) : Z := as_int (d_get d ks).

(** generator.go:21-40 *)
Definition config_string (d : data) (k dflt : string) : string :=
  if d_has d [k] then d_string d [k] else dflt.
Definition config_bool (d : data) (k : string) (dflt : bool) : bool :=
  if d_has d [k] then d_bool d [k] else dflt.
Definition config_int (d : data) (k : string) (dflt : Z) : Z :=
  if d_has d [k] then d_int d [k] else dflt.
