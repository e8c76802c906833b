(** Property theorems for configuration data (C20, C49) and misc.go (C21, C22, C46). *)
From Verif Require Import GoStr Value Data SpecData DataFacts Misc SpecMisc MiscFacts.

(** ** C20 *)
(** Any history of Puts: a key reads as the last value put under it, all other keys as before. *)
Theorem C20_put_get_history : forall d h1 k v h2,
  d = DNil \/ (exists l, d = DMap l) ->
  ~ In k (map fst h2) ->
  d_get (puts d (h1 ++ (k, v) :: h2)) [k] = v.
Proof. exact puts_last. Qed.
Print Assumptions C20_put_get_history.
Theorem C20_put_frame : forall h k, ~ In k (map fst h) ->
  forall d, d_get (puts d h) [k] = d_get d [k].
Proof. exact puts_other. Qed.
Print Assumptions C20_put_frame.
Theorem C20_put_frame_paths : forall l k v k1 x ks,
  In (k1, x) l -> k1 <> k -> d_get (d_put (DMap l) k v) (k1 :: ks) = d_get (DMap l) (k1 :: ks).
Proof. exact put_deep. Qed.
Print Assumptions C20_put_frame_paths.
Example C20_history_instance :
  let d := puts DNil [("a", VInt 1); ("b", VInt 2); ("a", VInt 3); ("c", VNil)] in
  d_get d ["a"] = VInt 3 /\ d_get d ["b"] = VInt 2 /\ d_get d ["z"] = VNil.
Proof. vm_compute. auto. Qed.

(** Data read from the text [null] also holds nothing, but a Put on it is lost. *)
Theorem C20_put_on_null_refuted : exists d k v,
  (forall ks, d_get d ks = VNil) /\ v <> VNil /\ d_get (d_put d k v) [k] = VNil.
Proof. exists DNilMap, "k", (VInt 1). repeat split; discriminate. Qed.
Print Assumptions C20_put_on_null_refuted.

(** A path all of whose keys are present reads as the value at its end. *)
Theorem C20_path_present : forall l ks v,
  vwf (VMap l) -> at_path l ks v -> d_get (DMap l) ks = v.
Proof. exact path_found. Qed.
Print Assumptions C20_path_present.
Definition demo_config : list (string * value) :=
  [("b", VInt 7); ("x", VMap [("y", VMap [("z", VStr "deep")])])].
Example C20_path_instance : vwf (VMap demo_config) /\ at_path demo_config ["x"; "y"; "z"] (VStr "deep").
Proof.
  split.
  - apply wf_map; [repeat constructor; simpl; intuition discriminate|].
    repeat constructor; simpl; try discriminate; intuition discriminate.
  - eapply at_more; [right; left; reflexivity|]. eapply at_more; [left; reflexivity|].
    apply at_one. now left.
Qed.

(** A path with an absent key should read nil; the code skips the absent key instead. *)
Theorem C20_absent_key_refuted : exists l k1 k2 v,
  ~ In k1 (map fst l) /\ v <> VNil /\ d_get (DMap l) [k1; k2] = v.
Proof.
  exists demo_config, "a", "b", (VInt 7). split; [simpl; intuition discriminate|].
  split; [discriminate|reflexivity].
Qed.
Print Assumptions C20_absent_key_refuted.
(** What is true: one key that is absent reads nil, and whatever a path reads is the value at the
    end of a real path made of some of its keys, the last included. *)
Theorem C20_absent_partial :
  (forall l k, ~ In k (map fst l) -> d_get (DMap l) [k] = VNil)
  /\ (forall d ks, d_get d ks <> VNil ->
       exists l sub, d = DMap l /\ keeps_last sub ks /\ at_path l sub (d_get d ks)).
Proof. split; [exact get_absent|exact get_sound]. Qed.
Print Assumptions C20_absent_partial.
Example C20_absent_instance : d_get (DMap demo_config) ["q"; "x"; "y"; "z"] = VStr "deep"
  /\ d_get (DMap demo_config) ["b"; "y"] = VNil.
Proof. vm_compute. auto. Qed.

(** ** C49 *)
Theorem C49_config_default : forall d k, d_get d [k] = VNil ->
  (forall s, config_string d k s = s) /\ (forall b, config_bool d k b = b) /\ (forall z, config_int d k z = z).
Proof. exact config_default. Qed.
Print Assumptions C49_config_default.
Theorem C49_config_set : forall d h1 k v h2,
  d = DNil \/ (exists l, d = DMap l) -> ~ In k (map fst h2) ->
  let d' := puts d (h1 ++ (k, v) :: h2) in
  (forall s dflt, v = VStr s -> config_string d' k dflt = s)
  /\ (forall b dflt, v = VBool b -> config_bool d' k dflt = b)
  /\ (forall s dflt, v = VStr s -> (config_bool d' k dflt = false <-> s = "false"))
  /\ (forall z dflt, v = VInt z -> config_int d' k dflt = z).
Proof. exact config_set. Qed.
Print Assumptions C49_config_set.
Example C49_instance :
  let d := puts DNil [("force", VStr "no"); ("n", VInt 4)] in
  config_bool d "force" false = true /\ config_int d "n" 9 = 4%Z /\ config_int d "m" 9 = 9%Z
  /\ config_string d "n" "dflt" = "".
Proof. vm_compute. auto. Qed.

(** ** C21 *)
(** Single-line comment, a limit that leaves room, a margin that is not empty: the output is the
    padding, the lines, the padding; the lines hold exactly the words (as cut at blanks) in order; a
    line of two or more words is within the limit; before the lines there is a lone newline exactly
    when the first word alone reaches the limit. *)
Theorem C21_layout_partial : forall indent prefix comment maxcol b,
  (slen indent < maxcol)%Z -> smem "010" comment = false ->
  indent +++ prefix <> "" ->
  exists groups, concat groups = split " " comment
    /\ laid_out (spaces (String.length indent) +++ prefix) maxcol groups
    /\ format_comment indent prefix comment maxcol b
       = pad_of indent prefix b
         +++ ((if (maxcol <=? slen (hd EmptyString (split " " comment)))%Z then newline else EmptyString)
              +++ lines_of (spaces (String.length indent) +++ prefix) groups)
         +++ pad_of indent prefix b.
Proof. exact format_comment_wrapped. Qed.
Print Assumptions C21_layout_partial.
Example C21_instance :
  format_comment "  " "// " "one two three" 12 false
  = "  // one two" +++ newline +++ "  // three" +++ newline
  /\ (slen "  " < 12)%Z /\ smem "010" "one two three" = false.
Proof. vm_compute. auto. Qed.
(** Without any margin the words are kept up to blank ones. *)
Theorem C21_layout_bare_partial : forall comment maxcol b,
  (0 < maxcol)%Z -> smem "010" comment = false ->
  exists groups, filter nonblank (concat groups) = filter nonblank (split " " comment)
    /\ laid_out "" maxcol groups
    /\ format_comment "" "" comment maxcol b
       = pad_of "" "" b +++ lines_of "" groups +++ pad_of "" "" b.
Proof. exact format_comment_bare. Qed.
Print Assumptions C21_layout_bare_partial.
Example C21_bare_instance : format_comment "" "" " a b" 10 false = "a b" +++ newline.
Proof. reflexivity. Qed.
(** A comment with newlines keeps its lines, whatever the limit. *)
Theorem C21_lines_partial : forall indent prefix comment maxcol b,
  smem "010" comment = true ->
  format_comment indent prefix comment maxcol b
  = lines_of (spaces (String.length indent) +++ prefix) (map (fun x => [x]) (split "010" comment)).
Proof. exact format_comment_lines. Qed.
Print Assumptions C21_lines_partial.
Example C21_lines_instance : format_comment " " "# " ("a b" +++ newline +++ "c") 3 true
  = " # a b" +++ newline +++ " # c" +++ newline.
Proof. reflexivity. Qed.
(** The full claim fails: a long first word puts out a line without indent and prefix, and an
    indent that is not made of blanks is replaced by blanks. *)
Theorem C21_blank_line_refuted : exists indent prefix comment maxcol rest,
  (slen indent < maxcol)%Z /\ smem "010" comment = false /\ prefix <> ""
  /\ format_comment indent prefix comment maxcol false = newline +++ rest.
Proof.
  exists "", "// ", "internationalisation", 10%Z, ("// internationalisation" +++ newline).
  split; [reflexivity|]. split; [reflexivity|]. split; [discriminate|reflexivity].
Qed.
Print Assumptions C21_blank_line_refuted.
Theorem C21_indent_refuted : exists indent prefix comment maxcol,
  smem "010" comment = false /\ (slen indent < maxcol)%Z
  /\ ~ exists rest, format_comment indent prefix comment maxcol false = indent +++ rest.
Proof.
  exists (String "009" ""), "// ", "word", 80%Z. split; [reflexivity|]. split; [reflexivity|].
  intros [rest H]. vm_compute in H. discriminate.
Qed.
Print Assumptions C21_indent_refuted.

(** ** C22 *)
Theorem C22_capitalize_partial : forall c r, ascii7 c ->
  (exists d, capitalize (String c r) = String d r
     /\ (lower_letter c -> case_pair d c) /\ (~ lower_letter c -> d = c))
  /\ (exists d, uncapitalize (String c r) = String d r
     /\ (upper_letter c -> case_pair c d) /\ (~ upper_letter c -> d = c)).
Proof. intros c r H. split; [now apply capitalize_spec|now apply uncapitalize_spec]. Qed.
Print Assumptions C22_capitalize_partial.
Theorem C22_idempotent_partial : forall s,
  (forall c r, s = String c r -> ascii7 c) ->
  capitalize (capitalize s) = capitalize s /\ uncapitalize (uncapitalize s) = uncapitalize s.
Proof. exact capitalize_idem. Qed.
Print Assumptions C22_idempotent_partial.
Theorem C22_round_trip : forall s c r, s = String c r ->
  (lower_letter c -> uncapitalize (capitalize s) = s)
  /\ (upper_letter c -> capitalize (uncapitalize s) = s).
Proof. intros s c r E. split; intro H; [exact (cap_uncap s c r E H)|exact (uncap_cap s c r E H)]. Qed.
Print Assumptions C22_round_trip.
Theorem C22_symbol_exact : forall s, is_symbol s = true <-> identifier s.
Proof. exact is_symbol_iff. Qed.
Print Assumptions C22_symbol_exact.
Theorem C22_case_keeps_identifiers : forall s, identifier s ->
  identifier (capitalize s) /\ identifier (uncapitalize s).
Proof. exact capitalize_identifier. Qed.
Print Assumptions C22_case_keeps_identifiers.
Example C22_instance : is_symbol "get_Item2" = true /\ is_symbol "_x" = false
  /\ is_symbol "a-b" = false /\ capitalize "get_Item2" = "Get_Item2"
  /\ lower_letter "g" /\ ascii7 "g".
Proof. unfold lower_letter, ascii7. vm_compute. repeat split; lia. Qed.
(** On a word that starts with a byte above 127 (any accented letter) Capitalize corrupts the text
    and is not idempotent. *)
Theorem C22_non_ascii_refuted : exists s,
  capitalize (capitalize s) <> capitalize s /\ uncapitalize (capitalize s) <> s
  /\ String.length (capitalize s) = 2 + String.length s.
Proof.
  exists (String (ascii_of_nat 195) (String (ascii_of_nat 169) "tat")).
  repeat split; vm_compute; discriminate.
Qed.
Print Assumptions C22_non_ascii_refuted.

(** ** C46 *)
Theorem C46_identity_assoc : forall a b c, trimmed a -> trimmed b -> trimmed c ->
  merge_comment "" a = a /\ merge_comment a "" = a
  /\ merge_comment (merge_comment a b) c = merge_comment a (merge_comment b c).
Proof.
  intros a b c Ha Hb Hc. split; [rewrite merge_left_id; now apply trimmed_trim|].
  split; [rewrite merge_right_id; now apply trimmed_trim|now apply merge_assoc].
Qed.
Print Assumptions C46_identity_assoc.
Theorem C46_merge_all : forall l,
  trim_space (fold_left merge_comment l "") = join " " (filter nonblank (map trim_space l)).
Proof. exact merge_all. Qed.
Print Assumptions C46_merge_all.
Theorem C46_trim_exact : forall s, trim_of s (trim_space s).
Proof. exact trim_space_spec. Qed.
Print Assumptions C46_trim_exact.
Example C46_instance : trimmed "first line" /\
  fold_left merge_comment [" first line"; ""; "  "; " second"] "" = "first line second".
Proof.
  split; [|reflexivity]. change "first line" with (trim_space "first line "). apply trim_trimmed.
Qed.
