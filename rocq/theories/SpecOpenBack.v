(** What comes back of the constraints and comments of a field after an OpenAPI export and import. *)
From Verif Require Import GoStr Value Schema SpecModel SpecOpenApi.

Definition int64 (z : Z) : Prop := (- 2 ^ 63 <= z < 2 ^ 63)%Z.
(** sizes come back but for a least size of 0, the pattern comes back, the listed values do not; bounds come back as floats; [f64] *)
Record limits_back (f64 : decimal -> decimal) (ts ts' : typespec) : Prop := mkLB {
  lb_pattern : ts_type ts = "String" -> ts_pattern ts' = ts_pattern ts;
  lb_values : ts_values ts' = None;
  lb_min_none : ts_minsize ts = None \/ ts_minsize ts = Some 0%Z \/ ts_type ts <> "String" -> ts_minsize ts' = None;
  lb_min_some : forall z, ts_type ts = "String" -> ts_minsize ts = Some z -> int64 z -> z <> 0%Z -> ts_minsize ts' = Some z;
  lb_max_none : ts_maxsize ts = None \/ ts_type ts <> "String" -> ts_maxsize ts' = None;
  lb_max_some : forall z, ts_type ts = "String" -> ts_maxsize ts = Some z -> int64 z -> ts_maxsize ts' = Some z;
  lb_bounds : In (ts_type ts) ["Int32"; "Int64"; "Decimal"] -> ts_min ts' = option_map f64 (ts_min ts) /\ ts_max ts' = option_map f64 (ts_max ts) }.
(** the comment of a field is lost; a Decimal gets its type as a comment *)
Definition comment_back (f g : fielddef) : Prop := fd_comment g = if string_dec (ts_type (fd_spec f)) "Decimal" then "Decimal" else "".
Definition field_back_as (f64 : decimal -> decimal) (f g : fielddef) : Prop :=
  same_field f g /\ comment_back f g /\ (In (ts_type (fd_spec f)) kept_scalars -> limits_back f64 (fd_spec f) (fd_spec g)).
