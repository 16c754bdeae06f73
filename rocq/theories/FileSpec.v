(** * FileSpec: what a byte file is. Specification for MemoryWriteStream, independent of its model. *)
From Verif Require Import Base Bytes Values.
Open Scope N_scope.

(** A byte file: its bytes and the current position (never behind the end). *)
Record file := File { f_bytes : list byte; f_pos : N }.

(** Write [bs] at the current position: bytes before it stay, [bs] replaces what is there and
    extends the file if it passes the end, bytes behind it stay; the position moves behind [bs]. *)
Definition f_put (bs : list byte) (f : file) : file :=
  File (take (f_pos f) (f_bytes f) ++ bs ++ drop (f_pos f + len bs) (f_bytes f))
       (f_pos f + len bs).

(** Move the position; moving behind the end extends the file with zero bytes. *)
Definition f_seek (p : N) (f : file) : file :=
  File (f_bytes f ++ rep x00 (p - len (f_bytes f))) p.

(** The stored bytes: integers least significant byte first, or most significant byte first when
    the byte order is flipped; uuid fields always most significant byte first; hashes as they are. *)
Definition stored (flip : bool) (x : scalar) : list byte :=
  match x with
  | SInt w v => let l := le (N.to_nat (wbytes w)) v in if flip then rev l else l
  | SUuid d1 d2 d3 d4 => rev (le 4 d1) ++ rev (le 2 d2) ++ rev (le 2 d3) ++ d4
  | SHash h => h
  end.

(** Effect of the call on a byte file together with the byte order setting. *)
Definition f_step (st : file * bool) (o : wop) : file * bool :=
  let '(f, fl) := st in
  match o with
  | OWrite _ xs => (f_put (flat_map (stored fl) xs) f, fl)
  | OSeek p => (f_seek p f, fl)
  | OFlip b => (f, b)
  end.

(** The file sizes reached along a history (to say that they fit in memory). *)
Fixpoint f_sizes (st : file * bool) (ops : list wop) : list N :=
  match ops with
  | [] => []
  | o :: ops' => let st' := f_step st o in len (f_bytes (fst st')) :: f_sizes st' ops'
  end.

(** The history writing scalars one by one. *)
Definition write_each (xs : list scalar) : list wop := map (fun x => OWrite (scalar_kind x) [x]) xs.

(** The value seen when an integer is read with the wrong byte order: its bytes reversed. *)
Definition byte_swapped (x : scalar) : scalar :=
  match x with
  | SInt w v => SInt w (of_le (rev (le (N.to_nat (wbytes w)) v)))
  | _ => x
  end.
