(** generator.go: the text buffer and the file writer shared by the code generators; the guarded
    writers of golang/export_golang.go and java/export_java.go; Go's filepath.Join. *)
From Verif Require Import GoStr Outcome.

Definition nl : string := String (ascii_of_nat 10) EmptyString.

(** ** Files *)
(** The file system as seen by os.Stat and os.Create: the content of each regular file. *)
Definition files := string -> option string.
Definition set_file (p c : string) (fs : files) : files := fun q => if q =?s p then Some c else fs q.

(** What the operating system does during one call of WriteFile: [io_stat] os.Stat fails for another
    reason than absence, [io_open] os.Create succeeds, [io_room] the number of bytes that can be
    written, [io_tells] whether bufio.Writer.WriteString is the call that notices a short write
    (it writes through only when the text exceeds the buffer of 4096 bytes; otherwise Flush does,
    and generator.go:78 ignores its result). *)
Record io := mkIO { io_stat : bool; io_open : bool; io_room : nat; io_tells : bool }.
Definition bufio_size : nat := 4096.

(** generator.go:12-19: [Err] (only whether it is nil), the text in [buf] and [writer] ([None]: no
    writer), and the file system. *)
Record gstate := mkGen { g_err : bool; g_text : option string; g_fs : files }.

(** generator.go:42-46; writing to a bytes.Buffer does not fail *)
Definition emit (s : string) (g : gstate) : gstate :=
  if g_err g then g
  else match g_text g with Some t => mkGen false (Some (t +++ s)) (g_fs g) | None => g end.
(** generator.go:48-54 *)
Definition begin_ (g : gstate) : gstate := if g_err g then g else mkGen false (Some "") (g_fs g).
(** generator.go:56-62 *)
Definition end_ (g : gstate) : string :=
  if g_err g then "" else match g_text g with Some t => t | None => "" end.
(** generator.go:81-100, golang/export_golang.go:224-248: [r] is the text of the executed template,
    [None] if it does not parse or execute. *)
Definition emit_template (r : option string) (g : gstate) : gstate :=
  if g_err g then g
  else match r with Some s => emit s g | None => mkGen true (g_text g) (g_fs g) end.

(** generator.go:64-79 *)
Definition write_file (force : bool) (path content : string) (i : io) (g : gstate) : gstate :=
  if negb force && (io_stat i || match g_fs g path with Some _ => true | None => false end) then g
  else if negb (io_open i) then mkGen true (g_text g) (g_fs g)
  else
    let len := String.length content in
    let short := io_room i <? len in
    mkGen (short && (bufio_size <? len) && io_tells i) (g_text g)
      (set_file path (stake (io_room i) content) (g_fs g)).
(** golang/export_golang.go:85-99 WriteGoFile, java/export_java.go:159-173 WriteJavaFile,
    java/java_pom.go:36-40: a write guarded by [gen.Err == nil] (the path and the header are made
    before; here they are part of [path] and [content]). *)
Definition write_guarded (force : bool) (path content : string) (i : io) (g : gstate) : gstate :=
  if g_err g then g else write_file force path content i g.
(** java/export_java.go:148-157 EnsurePackageDir: directories are not part of [files] *)
Definition ensure_dir (works : bool) (g : gstate) : gstate :=
  if g_err g then g else mkGen (negb works) (g_text g) (g_fs g).

(** One call of the generator. *)
Inductive gcall :=
| GBegin | GEmit (s : string) | GTemplate (r : option string)
| GDir (works : bool)
| GWrite (path content : string) (i : io)
| GWriteGuarded (path content : string) (i : io)
(** the content is the text emitted so far, as in golang/golang_model.go:22-25 *)
| GFlush (path head : string) (i : io).
Definition gstep (force : bool) (c : gcall) (g : gstate) : gstate :=
  match c with
  | GBegin => begin_ g
  | GEmit s => emit s g
  | GTemplate r => emit_template r g
  | GDir w => ensure_dir w g
  | GWrite p c i => write_file force p c i g
  | GWriteGuarded p c i => write_guarded force p c i g
  | GFlush p h i => write_guarded force p (h +++ end_ g) i g
  end.
Definition grun (force : bool) (cs : list gcall) (g : gstate) : gstate := fold_left (fun g c => gstep force c g) cs g.

(** ** filepath.Clean and filepath.Join (Go standard library, Unix) *)
(** [stack]: the components so far, last first *)
Fixpoint clean_comps (rooted : bool) (comps stack : list string) : list string :=
  match comps with
  | [] => rev stack
  | c :: r =>
      if (c =?s "") || (c =?s ".") then clean_comps rooted r stack
      else if c =?s ".." then
        match stack with
        | [] => if rooted then clean_comps rooted r [] else clean_comps rooted r [c]
        | d :: s => if d =?s ".." then clean_comps rooted r (c :: stack) else clean_comps rooted r s
        end
      else clean_comps rooted r (c :: stack)
  end.
Definition clean (p : string) : string :=
  if p =?s "" then "."
  else
    let rooted := has_prefix "/" p in
    let l := clean_comps rooted (split "/" p) [] in
    let body := join "/" l in
    if rooted then "/" +++ body else if body =?s "" then "." else body.
(** empty elements are ignored; all empty: "" *)
Definition path_join (l : list string) : string :=
  match filter (fun s => negb (s =?s "")) l with
  | [] => ""
  | l' => clean (join "/" l')
  end.
