(** * GenFiles: how the code generator replaces its output files. Model of
    CodeGenerator/CodeGeneratorHelpers.py:130-173 (inline_file, run_module, write_lines_to_file) with the effects on
    the file system one by one, so that a run can stop (crash, exception, user) between any two of them.
    Simplified: a character is one byte and every byte string decodes (the generator only emits ASCII); a file is its
    bytes and two permissions; directories exist. *)
From Verif Require Import Base.
Local Open Scope nat_scope.

(** Line feed, carriage return. Python text files, CodeGeneratorHelpers.py:131, 153, 168. *)
Definition LF : byte := x0a.
Definition CR : byte := x0d.
Definition is_char (c d : byte) : bool := Byte.eqb c d.

(** The operating system the generator runs on: newline and meaning of permissions differ. *)
Inductive platform := Windows | Posix.
(** A file. [f_read], [f_write]: its permissions. *)
Record file := File { f_bytes : list byte; f_read : bool; f_write : bool }.

(** What writing a text writes: open(path,'w') translates line feeds (os.linesep). CodeGeneratorHelpers.py:168-169. *)
Fixpoint to_disk (pl : platform) (t : list byte) : list byte :=
  match t with
  | [] => []
  | c :: r => (if is_char c LF then match pl with Windows => [CR; LF] | Posix => [LF] end else [c]) ++ to_disk pl r
  end.
(** What reading a file gives: open(path,'r') translates CR LF and CR to LF (universal newlines).
    CodeGeneratorHelpers.py:131, 153-154. *)
Fixpoint from_disk (d : list byte) : list byte :=
  match d with
  | [] => []
  | c :: r => if is_char c CR then LF :: match r with c' :: r' => if is_char c' LF then from_disk r' else from_disk r | [] => [] end
              else c :: from_disk r
  end.

(** The effects on one path: os.chmod(path,S_IWUSR), os.remove(path), open(path,'w'), the bytes written in one go (the
    buffer of the file object is flushed whenever Python likes), os.chmod(path,read-only). *)
Inductive effect := ChmodWrite | Remove | Create | Append (bs : list byte) | ChmodRead.
(** The state of the path after an effect; None is an OSError. On Windows a file is always readable and a read-only
    file can not be removed; on Posix S_IWUSR takes the read permission away.
    CodeGeneratorHelpers.py:163, 164, 168, 169, 173. *)
Definition do_effect (pl : platform) (e : effect) (f : option file) : option (option file) :=
  match e, f with
  | ChmodWrite, Some f => Some (Some (File (f_bytes f) (match pl with Windows => true | Posix => false end) true))
  | Remove, Some f => match pl with Windows => if f_write f then Some None else None | Posix => Some None end
  | Create, None => Some (Some (File [] true true))
  | Create, Some f => if f_write f then Some (Some (File [] (f_read f) true)) else None
  | Append bs, Some f => Some (Some (File (f_bytes f ++ bs) (f_read f) (f_write f)))
  | ChmodRead, Some f => Some (Some (File (f_bytes f) true false))
  | _, None => None
  end.

(** The text made of the lines. CodeGeneratorHelpers.py:145-148. *)
Definition join_lines (lines : list (list byte)) : list byte := fold_left (fun t l => t ++ (l ++ [LF])) lines [].
(** Equality of texts. CodeGeneratorHelpers.py:158. *)
Fixpoint text_eqb (a b : list byte) : bool :=
  match a, b with
  | [], [] => true
  | x :: a', y :: b' => Byte.eqb x y && text_eqb a' b'
  | _, _ => false
  end.

(** write_lines_to_file: the effects it will have on its path in the given state; None when the existing file can not
    be read (PermissionError). [chunk] says how the bytes are split into flushes. CodeGeneratorHelpers.py:144-173. *)
Definition write_lines (pl : platform) (chunk : list byte -> list (list byte)) (f : option file) (lines : list (list byte)) : option (list effect) :=
  let new_text := join_lines lines in
  let rewrite := [Create] ++ map Append (chunk (to_disk pl new_text)) ++ [ChmodRead] in
  match f with
  | Some f =>
    if negb (f_read f) then None else
    if text_eqb new_text (from_disk (f_bytes f)) then Some [] else Some ([ChmodWrite; Remove] ++ rewrite)
  | None => Some rewrite
  end.

(** Effects in order, at most [k] of them: how many more may follow, or None if the run stopped here. *)
Fixpoint play (pl : platform) (es : list effect) (k : nat) (f : option file) : option nat * option file :=
  match es with
  | [] => (Some k, f)
  | e :: r =>
    match k with
    | O => (None, f)
    | S k' => match do_effect pl e f with Some f' => play pl r k' f' | None => (None, f) end
    end
  end.

(** The files, by path. *)
Definition files := list byte -> option file.
Definition path_eqb : list byte -> list byte -> bool := text_eqb.
Definition set_file (p : list byte) (f : option file) (fs : files) : files := fun q => if path_eqb q p then f else fs q.

(** A run of the generator: it writes its targets one after another (CodeGenerator.py:7-12, the run() functions of
    CodeGenerator/Generators and their write_lines_to_file calls). It stops after [k] effects, or where one fails; the
    bool says whether it finished. *)
Fixpoint generate (pl : platform) (chunk : list byte -> list (list byte)) (targets : list (list byte * list (list byte))) (k : nat) (fs : files) : bool * files :=
  match targets with
  | [] => (true, fs)
  | (p, lines) :: r =>
    match write_lines pl chunk (fs p) lines with
    | None => (false, fs)
    | Some es => match play pl es k (fs p) with
                 | (Some k', f) => generate pl chunk r k' (set_file p f fs)
                 | (None, f) => (false, set_file p f fs)
                 end
    end
  end.

(** str.rstrip on ASCII: the characters it takes off the end. CodeGeneratorHelpers.py:135. *)
Definition is_space (c : byte) : bool :=
  ((9 <=? b2n c) && (b2n c <=? 13) || (28 <=? b2n c) && (b2n c <=? 32))%N.
Fixpoint strip_front (l : list byte) : list byte := match l with c :: r => if is_space c then strip_front r else l | [] => [] end.
Definition rstrip (l : list byte) : list byte := rev (strip_front (rev l)).
(** readlines: the text cut behind each line feed. CodeGeneratorHelpers.py:132. [cur] is the line so far, reversed. *)
Fixpoint readlines (cur t : list byte) : list (list byte) :=
  match t with
  | [] => match cur with [] => [] | _ => [rev cur] end
  | c :: r => if is_char c LF then rev (c :: cur) :: readlines [] r else readlines (c :: cur) r
  end.
(** inline_file. CodeGeneratorHelpers.py:130-137. *)
Definition inline_file (f : file) : list (list byte) := map rstrip (readlines [] (from_disk (f_bytes f))).
