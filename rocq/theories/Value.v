(** Dynamic values: what a Go [interface{}] holds in this code base. *)
From Verif Require Import GoStr.

(** decimal.go:12-14 [Decimal] wraps [big.Float].  A finite big.Float is a dyadic
    rational [m * 2^e]; it can also be an infinity.  The precision and rounding mode
    carried by a big.Float are not modelled, nor is negative zero as a separate value. *)
Inductive decimal :=
| DFin (m e : Z)
| DInf (neg : bool).

(** [big.Float.Cmp] (math/big): exact comparison. *)
Definition dec_cmp (a b : decimal) : comparison :=
  match a, b with
  | DFin m1 e1, DFin m2 e2 =>
      let e := Z.min e1 e2 in
      Z.compare (m1 * 2 ^ (e1 - e))%Z (m2 * 2 ^ (e2 - e))%Z
  | DInf true, DInf true => Eq
  | DInf false, DInf false => Eq
  | DInf true, _ => Lt
  | _, DInf true => Gt
  | DInf false, _ => Gt
  | _, DInf false => Lt
  end.

Definition dec_of_Z (z : Z) : decimal := DFin z 0.

(** timestamp.go:10-12 [Timestamp] wraps [time.Time].  Modelled as the civil fields that
    Year/Month/.../Nanosecond return in the time's own location, plus that location's
    offset from UTC in seconds.  Monotonic clock readings and zone names are not modelled. *)
Record timestamp := mkTime {
  t_year : Z; t_month : Z; t_day : Z;
  t_hour : Z; t_min : Z; t_sec : Z; t_nsec : Z;
  t_off : Z }.

(** Go dynamic types that occur as [interface{}] values.  Typed nil pointers are not modelled.
    [VInt]/[VInt32]/[VFloat64] are Go [int], [int32], [float64] (a float64 is a dyadic rational). *)
Inductive value :=
| VNil
| VBool (b : bool)
| VPBool (b : bool)          (* *bool *)
| VStr (s : string)
| VPStr (s : string)         (* *string, what the SADL parser builds *)
| VUuid (s : string)         (* sadl.UUID *)
| VDec (d : decimal)         (* *Decimal *)
| VDecV (d : decimal)        (* Decimal by value *)
| VTime (t : timestamp)      (* *Timestamp *)
| VInt (z : Z)
| VInt32 (z : Z)
| VFloat64 (d : decimal)
| VArr (l : list value)      (* []interface{} *)
| VMap (l : list (string * value)).  (* map[string]interface{} *)

(** Induction that reaches inside arrays and maps. *)
Section value_ind'.
  Variable P : value -> Prop.
  Hypothesis Hnil : P VNil.
  Hypothesis Hbool : forall b, P (VBool b).
  Hypothesis Hpbool : forall b, P (VPBool b).
  Hypothesis Hstr : forall s, P (VStr s).
  Hypothesis Hpstr : forall s, P (VPStr s).
  Hypothesis Huuid : forall s, P (VUuid s).
  Hypothesis Hdec : forall d, P (VDec d).
  Hypothesis Hdecv : forall d, P (VDecV d).
  Hypothesis Htime : forall t, P (VTime t).
  Hypothesis Hint : forall z, P (VInt z).
  Hypothesis Hint32 : forall z, P (VInt32 z).
  Hypothesis Hfloat : forall d, P (VFloat64 d).
  Hypothesis Harr : forall l, Forall P l -> P (VArr l).
  Hypothesis Hmap : forall l, Forall (fun kv => P (snd kv)) l -> P (VMap l).
  Fixpoint value_ind' (v : value) : P v :=
    match v with
    | VNil => Hnil
    | VBool b => Hbool b
    | VPBool b => Hpbool b
    | VStr s => Hstr s
    | VPStr s => Hpstr s
    | VUuid s => Huuid s
    | VDec d => Hdec d
    | VDecV d => Hdecv d
    | VTime t => Htime t
    | VInt z => Hint z
    | VInt32 z => Hint32 z
    | VFloat64 d => Hfloat d
    | VArr l => Harr l ((fix go (l : list value) : Forall P l :=
          match l with
          | [] => Forall_nil _
          | x :: r => Forall_cons x (value_ind' x) (go r)
          end) l)
    | VMap l => Hmap l ((fix go (l : list (string * value)) : Forall (fun kv => P (snd kv)) l :=
          match l with
          | [] => Forall_nil _
          | (k, x) :: r => @Forall_cons _ (fun kv => P (snd kv)) (k, x) r (value_ind' x) (go r)
          end) l)
    end.
End value_ind'.

Lemma dec_cmp_refl a : dec_cmp a a = Eq.
Proof. destruct a as [m e|[|]]; simpl; try reflexivity. apply Z.compare_refl. Qed.

Lemma dec_cmp_Z a b : dec_cmp (dec_of_Z a) (dec_of_Z b) = Z.compare a b.
Proof.
  unfold dec_of_Z, dec_cmp. rewrite Z.min_id, Z.sub_diag.
  change (2 ^ 0)%Z with 1%Z. now rewrite !Z.mul_1_r.
Qed.

(** Values that differ only in the order of map entries, at any depth. *)
Inductive vperm : value -> value -> Prop :=
| vp_refl v : vperm v v
| vp_arr l1 l2 : Forall2 vperm l1 l2 -> vperm (VArr l1) (VArr l2)
| vp_map l1 l2 l3 :
    Forall2 (fun a b => fst a = fst b /\ vperm (snd a) (snd b)) l1 l2 ->
    Permutation.Permutation l2 l3 -> vperm (VMap l1) (VMap l3).

(** Every map inside has distinct keys (true of any Go value). *)
Inductive vwf : value -> Prop :=
| wf_leaf v : (forall l, v <> VArr l) -> (forall l, v <> VMap l) -> vwf v
| wf_arr l : Forall vwf l -> vwf (VArr l)
| wf_map l : NoDup (keys l) -> Forall (fun kv => vwf (snd kv)) l -> vwf (VMap l).
