(** C98, C103: the functions of fixed text in the generated Go files. *)
From Verif Require Import GoStr Outcome Value Schema Scalars Time Model Misc ParserValidate Scan Parser Generator Golang GoModel GoServer GoClient
  SpecTime SpecModel SpecMisc SpecPV SpecParser SpecTrace SpecGo SpecGoServer SpecGoClient SpecGoLibrary ModelFacts PVFacts Demo Lex PropsParser
  TraceFacts PropsTrace GoModelFacts GoText GoServerFacts PropsGo PropsGoServer.

Lemma has_text_b s f : contains f s = true -> has_text s f.
Proof. intros H. apply contains_spec in H as (a & b & H). exists a, b. exact H. Qed.
Lemma has_text_app a s b f : has_text s f -> has_text (a +++ s +++ b) f.
Proof. intros (x & y & ->). exists (a +++ x), (y +++ b). now rewrite !append_assoc. Qed.
Lemma all_in_library (l : list string) (s : string) : forallb (fun f => contains f s) l = true -> forall f, In f l -> has_text s f.
Proof. intros H f I. rewrite forallb_forall in H. apply has_text_b, H, I. Qed.
Theorem C103_functions : forall sch m, new_model sch = Ok m -> forall runtime sprint parse_time name pkg s,
  create_server sprint parse_time m runtime name pkg = Ok s -> forall f, In f server_functions -> has_text s f.
Proof.
  intros sch m Hm rt sprint parse_time name pkg s H f I. destruct (server_spec sch m Hm rt sprint parse_time name pkg s H) as (imports & service & small & hs & -> & _).
  assert (A : has_text server_library f) by (apply (all_in_library server_functions); [vm_compute; reflexivity|exact I]).
  assert (B : exists a, server_text server_library pkg imports service (small +++ "Adaptor") hs = a +++ server_library).
  { unfold server_text. eexists. rewrite <- !append_assoc. reflexivity. }
  destruct B as [a ->]. rewrite <- (append_nil_r server_library). apply has_text_app, A.
Qed.
Print Assumptions C103_functions.
Lemma each_split (g : godecl -> string) l1 d l2 : each g (l1 ++ d :: l2) = each g l1 +++ g d +++ each g l2.
Proof. unfold each. induction l1 as [|x l1 IH]; [reflexivity|]. cbn [app fold_right]. rewrite IH, append_assoc. reflexivity. Qed.
Theorem C98_functions : forall sch m, new_model sch = Ok m -> forall runtime service pkg s,
  create_model m runtime service pkg = Ok s -> exists imports ds, s = file_text timestamp_type decimal_type pkg imports ds /\ file_shown sch runtime service ds
  /\ (In GdTimestamp ds -> forall f, In f timestamp_functions -> has_text s f) /\ (In GdDecimal ds -> forall f, In f decimal_functions -> has_text s f).
Proof.
  intros sch m Hm rt service pkg s H. destruct (C98_file_exact sch m Hm rt service pkg s H) as (i & ds & -> & F). exists i, ds. split; [reflexivity|]. split; [exact F|].
  assert (X : forall d, In d ds -> exists a b, file_text timestamp_type decimal_type pkg i ds = a +++ decl_text timestamp_type decimal_type d +++ b).
  { intros d D. apply in_split in D as (l1 & l2 & ->). unfold file_text.
    rewrite each_split. exists (line "//" +++ line "// Generated by sadl" +++ line "//" +++ line ("package " +++ pkg) +++ imports_text i +++ each (decl_text timestamp_type decimal_type) l1),
      (each (decl_text timestamp_type decimal_type) l2). rewrite !append_assoc. reflexivity. }
  split; intros D f I; destruct (X _ D) as (a & b & ->); apply has_text_app.
  - change (has_text timestamp_type f). apply (all_in_library timestamp_functions); [vm_compute; reflexivity|exact I].
  - change (has_text decimal_type f). apply (all_in_library decimal_functions); [vm_compute; reflexivity|exact I].
Qed.
Print Assumptions C98_functions.
Example C98_functions_case : exists s, create_model (parse_of go_lines) false "Store" "store" = Ok s /\ In GdTimestamp go_decls /\ timestamp_functions <> [] /\ server_functions <> [].
Proof. eexists. split; [exact (proj2 C98_file_case)|]. split; [cbv; auto 40|]. split; discriminate. Qed.
