(** * Loader: EntityLoader. Model of ISD/ISD.cpp, widen and full_path of ISD/ISD_Types.cpp.
    The operating system and the C library are parameters. (ISD/ISD_EntityLoader.cpp is an older copy
    that is not part of the project file ISD/ISD.vcxproj; it is not modelled.) *)
From Verif Require Import Base Values Streams Hex Sha256.
Open Scope N_scope.

(** Status codes. (ISD/ISD_Types.h:49-61) *)
Inductive status := SOk | EUndefined | EParam | ENotInitialized | EAlreadyInitialized | ECantAllocate
  | ECantOpen | ECantRead | ECorrupted | EInvalid.

(** ** Strings: wide strings are lists of character codes *)

(** str.c_str(): up to the first NUL. (Helper.) *)
Fixpoint c_str (s : list byte) : list byte :=
  match s with [] => [] | c :: r => if b2n c =? 0 then [] else c :: c_str r end.
(** widen. [conv] is mbstowcs_s in the locale of the program: the converted string, or None if the
    string is not valid there, in which case mbstowcs_s leaves an empty string.
    (ISD/ISD_Types.cpp:13-32; a failing new is not modelled) *)
Definition widen (conv : list byte -> option (list N)) (s : list byte) : list N :=
  match s with
  | [] => []
  | _ => match conv (c_str s) with Some w => w | None => [] end
  end.

(** ** The operating system *)

(** What the process sees of the OS while it loads one file. [os_read i pos n]: the answer to the i-th
    ReadFile call, asking for n bytes with the file pointer at pos: None on failure, otherwise the bytes.
    [os_mem]: the largest vector that can be allocated. *)
Record os := OS {
  os_open : list N -> bool;                       (* CreateFileW *)
  os_size : option N;                             (* GetFileSizeEx *)
  os_read : nat -> N -> N -> option (list byte);  (* ReadFile *)
  os_mem : N }.

(** Calls the loader makes, with the answers that matter. *)
Inductive os_call :=
| CallOpen (path : list N)
| CallSize
| CallRead (pos request : N) (answer : option (list byte))
| CallClose.

(** How the thread procedure ends: it returns a status (and, if Ok, has set up a stream over the data);
    an exception leaves it; undefined behaviour; or it has not ended in the given number of reads. *)
Inductive ending :=
| Ended (s : status) (stream : option rstream)
| Threw
| Bad
| Running.

(** UINT_MAX of the target. (ISD/ISD.cpp:103-105) *)
Definition uint_max : N := 4294967295.

(** The read loop: [buf] is the allocation, [bytes_read] the local variable, which is also where the file
    pointer is; [i] numbers the calls. Gives the filled buffer (inr) or how the function ended (inl).
    (ISD/ISD.cpp:97-119) *)
Fixpoint read_loop (reads i : nat) (o : os) (total bytes_read : N) (buf : list byte) (tr : list os_call)
  : (ending + list byte) * list os_call :=
  if bytes_read <? total then
    match reads with
    | O => (inl Running, tr)
    | S r =>
      let bytes_left := sub64 total bytes_read in
      let n := if bytes_left <? uint_max then bytes_left else uint_max in
      let a := os_read o i bytes_read n in
      let tr1 := tr ++ [CallRead bytes_read n a] in
      match a with
      | None => (inl (Ended ECantRead None), tr1)
      | Some d =>
        if bytes_read + len d <=? len buf
        then read_loop r (S i) o total (add64 bytes_read (len d))
               (take bytes_read buf ++ d ++ drop (bytes_read + len d) buf) tr1
        else (inl Bad, tr1)
      end
    end
  else (inr buf, tr).

(** memcmp( a, b, n ) == 0. (ISD/ISD.cpp:128) *)
Fixpoint same_bytes (n : nat) (a b : list byte) : bool :=
  match n, a, b with
  | O, _, _ => true
  | S n', x :: a', y :: b' => Byte.eqb x y && same_bytes n' a' b'
  | _, _, _ => false
  end.

(** The file name: hex form of the uuid and ".dat". (ISD/ISD.cpp:59-63; the hex string of the top byte is
    computed there but not used) *)
Definition file_path (conv : list byte -> option (list N)) (path : list N) (d1 d2 d3 : N) (d4 : list byte)
  : res (list N) :=
  do top <- hex_u8 (N.land (N.shiftr d1 24) 255);
  do name <- hex_uuid d1 d2 d3 d4;
  Done (path ++ [92] ++ (widen conv name ++ [46; 100; 97; 116])).

(** LoadThreadProcedure, from the opening of the file on. (ISD/ISD.cpp:65-149) *)
Definition load_file (L : sha_lib) (reads rounds : nat) (o : os) (path : list N) : ending * list os_call :=
  let tr := [CallOpen path] in
  if negb (os_open o path) then (Ended ECantOpen None, tr) else
  let tr := tr ++ [CallSize] in
  match os_size o with
  | None => (Ended ECantOpen None, tr)
  | Some total =>
    if total <? 32 then (Ended ECorrupted None, tr) else
    if os_mem o <? total then (Threw, tr) else
    let buffer := rep x00 total in
    match read_loop reads 0 o total 0 buffer tr with
    | (inl e, tr) => (e, tr)
    | (inr buffer, tr) =>
      let tr := tr ++ [CallClose] in
      let data_size := sub64 total 32 in
      match sha_new L rounds (Some buffer) data_size with
      | Some (Done c) =>
        let digest := fst (sha_digest L c) in
        if same_bytes 32 digest (drop data_size buffer)
        then (Ended SOk (Some (RS (take data_size buffer) 0 false)), tr)
        else (Ended ECorrupted None, tr)
      | Some _ => (Bad, tr)
      | None => (Running, tr)
      end
    end
  end.

(** LoadThreadProcedure. (ISD/ISD.cpp:50-149; the thread's parameters are values here) *)
Definition load_entity (L : sha_lib) (conv : list byte -> option (list N)) (reads rounds : nat) (o : os)
    (path : list N) (d1 d2 d3 : N) (d4 : list byte) : ending * list os_call :=
  match file_path conv path d1 d2 d3 d4 with
  | Done p => load_file L reads rounds o p
  | Throw => (Threw, [])
  | Undef => (Bad, [])
  end.

(** ** The EntityLoader object *)

(** What Initialize needs of the OS: GetFullPathNameW (None if it fails) and GetFileAttributesW
    (4294967295 if the path does not exist). *)
Record os_dirs := OSDirs {
  os_full : list N -> option (list N);
  os_attr : list N -> N }.
(** FILE_ATTRIBUTE_DIRECTORY. *)
Definition attr_directory : N := 16.

(** full_path: the absolute path, empty on failure. If it does not fit the buffer of 32768 characters
    GetFullPathNameW writes nothing and the uninitialised buffer is read. (ISD/ISD_Types.cpp:99-113) *)
Definition full_path (o : os_dirs) (p : list N) : res (list N) :=
  match os_full o p with
  | Some q => if len q <? 32768 then Done q else Undef
  | None => Done []
  end.

(** Initialize: the new Path member and the status. (ISD/ISD.cpp:20-42) *)
Definition initialize (conv : list byte -> option (list N)) (o : os_dirs) (Path : list N) (path : list byte)
  : res (list N * status) :=
  if negb (match Path with [] => true | _ => false end) then Done (Path, EAlreadyInitialized) else
  do wpath <- full_path o (widen conv path);
  if negb (os_attr o wpath =? attr_directory) then Done (Path, EParam) else
  Done (wpath, SOk).

(** AsyncLoadEntity: [mem] says whether malloc and CreateThread succeed. The parameters are allocated with
    malloc, so their std::wstring is assigned to without having been constructed, which is undefined
    behaviour. (ISD/ISD.cpp:151-170) *)
Definition async_load (mem_ok thread_ok : bool) : res status :=
  if negb mem_ok then Done ECantAllocate else Undef.

(** IsEntityLoaded and GetLoadedEntity. (ISD/ISD.cpp:172-181) *)
Definition is_entity_loaded : bool * status := (false, SOk).
Definition get_loaded_entity : option unit * status := (None, SOk).
