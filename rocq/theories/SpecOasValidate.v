(** When the OpenAPI importer takes a document: no functions of the model, only its records. *)
From Verif Require Import GoStr Value Schema.
From Verif Require OpenApi OpenApiImport OasValidate.
Import OpenApi(pathitem). Import OpenApiImport(oinfo, oi_openapi, oi_title, oi_version, oi_license). Import OasValidate(oasfile, of_info, of_paths).

Definition rooted (s : string) : Prop := exists r, s = String "/" r.
Definition takeable (d : oasfile) : Prop :=
  exists i ps, of_info d = Some i /\ of_paths d = Some ps /\ oi_openapi i <> "" /\ oi_title i <> "" /\ oi_version i <> ""
    /\ (forall n u, oi_license i = Some (n, u) -> n <> "") /\ (forall p x, In (p, x) ps -> rooted p).
(** models whose document is taken again *)
Definition annotated (sch : schema) (k : string) : Prop := exists v, In (k, v) (sc_annos sch) /\ v <> "".
Definition writes_takeable (sch : schema) : Prop :=
  sc_name sch <> "" /\ (annotated sch "x_license_url" -> annotated sch "x_license_name")
  /\ forall h, In h (sc_http sch) -> rooted (sc_base sch +++ h_path h).
