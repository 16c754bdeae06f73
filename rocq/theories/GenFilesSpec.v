(** * GenFilesSpec: what the generator promises about its output files. *)
From Verif Require Import Base GenFiles.
Local Open Scope nat_scope.

(** Every line followed by a line feed. *)
Definition text (lines : list (list byte)) : list byte := concat (map (fun l => l ++ [LF]) lines).
(** Lines without carriage returns. *)
Definition plain (lines : list (list byte)) : Prop := forall l, In l lines -> ~ In CR l.
(** The text an editor or compiler sees in the file. *)
Definition shows (f : file) (t : list byte) : Prop := from_disk (f_bytes f) = t.
(** Flushing loses, adds and reorders nothing. *)
Definition flushes (chunk : list byte -> list (list byte)) : Prop := forall d, concat (chunk d) = d.

(** The file after the lines were written, given the file before: left alone if it shows the text already, otherwise
    replaced by a read-only file with exactly the bytes of the text. *)
Definition updated (pl : platform) (lines : list (list byte)) (before after : option file) : Prop :=
  (exists f, before = Some f /\ shows f (text lines) /\ after = Some f) \/
  ((forall f, before = Some f -> ~ shows f (text lines)) /\ after = Some (File (to_disk pl (text lines)) true false)).
(** The file when the update was interrupted: the old bytes, no file, or the beginning of the new bytes. *)
Definition halfway (pl : platform) (lines : list (list byte)) (before after : option file) : Prop :=
  (exists f, before = Some f /\ ~ shows f (text lines) /\ exists r w, after = Some (File (f_bytes f) r w)) \/
  after = None \/
  (exists bs rest, to_disk pl (text lines) = bs ++ rest /\ after = Some (File bs true true)).

(** Runs of the generator, each with its own targets and flushing, stopped anywhere or finished. *)
Inductive runs (pl : platform) (fs : files) : files -> Prop :=
| runs_none : runs pl fs fs
| runs_more fs1 chunk targets k ok fs2 : runs pl fs fs1 -> flushes chunk ->
    generate pl chunk targets k fs1 = (ok, fs2) -> runs pl fs fs2.

(** Every file can be read. *)
Definition readable (fs : files) : Prop := forall p f, fs p = Some f -> f_read f = true.

(** Trailing whitespace. *)
Definition blank (l : list byte) : Prop := forall c, In c l -> is_space c = true.
Definition stripped (l : list byte) : Prop := l = [] \/ exists a c, l = a ++ [c] /\ is_space c = false.
(** The text cut into lines: every line but the last ends with its only line feed. *)
Definition lines_of (t : list byte) (ls : list (list byte)) : Prop :=
  concat ls = t /\ (forall a l b, ls = a ++ l :: b -> l <> [] /\ (forall c d, l = c ++ LF :: d -> d = []) /\ (b <> [] -> exists c, l = c ++ [LF])).
