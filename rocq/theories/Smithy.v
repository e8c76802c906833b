(** smithy/export_smithy.go and smithy/import_smithy.go: names of shapes and error categories. *)
From Verif Require Import GoStr.

(** export_smithy.go:370-405; line 366-368 passes the type of a spec *)
Definition type_reference (ns name : string) : string :=
  if name =?s "Bool" then "smithy.api#Boolean"
  else if name =?s "Int8" then "smithy.api#Byte"
  else if name =?s "Int16" then "smithy.api#Short"
  else if name =?s "Int32" then "smithy.api#Integer"
  else if name =?s "Int64" then "smithy.api#Long"
  else if name =?s "Float32" then "smithy.api#Float"
  else if name =?s "Float64" then "smithy.api#Double"
  else if name =?s "Decimal" then "smithy.api#BigDecimal"
  else if name =?s "Timestamp" then "smithy.api#Timestamp"
  else if name =?s "UUID" then "smithy.api#String"
  else if name =?s "Bytes" then "smithy.api#Blob"
  else if name =?s "String" then "smithy.api#String"
  else if name =?s "Array" then "smithy.api#List"
  else if name =?s "Map" then "smithy.api#Map"
  else if name =?s "Struct" then "smithy.api#Document"
  else ns +++ "#" +++ name.

(** export_smithy.go:778-793 *)
Definition http_error_category (status : Z) : string :=
  if (status <? 200)%Z then "informational"
  else if (status <? 300)%Z then "success"
  else if (status <? 400)%Z then "redirect"
  else if (500 <=? status)%Z then "server"
  else "client".

(** export_smithy.go:795-808 *)
Definition smithy_names : list string :=
  [ "Boolean"; "Byte"; "Short"; "Integer"; "Long"; "Float"; "Double"; "BigInteger"; "BigDecimal";
    "Blob"; "String"; "Timestamp"; "UUID"; "Enum";
    "List"; "Map"; "Set"; "Document"; "Structure"; "Union" ].
Definition ensure_namespaced (ns name : string) : string :=
  if str_mem name smithy_names then name
  else if negb (smem "#" name) then ns +++ "#" +++ name
  else name.

(** import_smithy.go:929-935 *)
Definition strip_namespace (s : string) : string :=
  match cut "#" s with None => s | Some (_, r) => r end.

(** import_smithy.go:661-703 *)
Definition shape_to_type (r : string) : string :=
  if str_mem r ["smithy.api#Blob"; "Blob"] then "Bytes"
  else if str_mem r ["smithy.api#Boolean"; "Boolean"] then "Bool"
  else if str_mem r ["smithy.api#String"; "String"] then "String"
  else if str_mem r ["smithy.api#Byte"; "Byte"] then "Int8"
  else if str_mem r ["smithy.api#Short"; "Short"] then "Int16"
  else if str_mem r ["smithy.api#Integer"; "Integer"] then "Int32"
  else if str_mem r ["smithy.api#Long"; "Long"] then "Int64"
  else if str_mem r ["smithy.api#Float"; "Float"] then "Float32"
  else if str_mem r ["smithy.api#Double"; "Double"] then "Float64"
  else if str_mem r ["smithy.api#BigInteger"; "BigInteger"] then "Decimal"
  else if str_mem r ["smithy.api#BigDecimal"; "BigDecimal"] then "Decimal"
  else if str_mem r ["smithy.api#Timestamp"; "Timestamp"] then "Timestamp"
  else if str_mem r ["smithy.api#Document"; "Document"] then "Struct"
  else strip_namespace r.
