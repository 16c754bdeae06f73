(** * ProtocolSpec: what the calls made so far say about the open section or array of an object.
    Specification, in terms of calls and results only. *)
From Verif Require Import Base Protocol Sections.
Open Scope N_scope.

(** What happened: on object [h] a section [c] was opened; an array of [size] sections (None: the
    null array) was opened as [c]; section [i] of the array [arg] was asked for; the section or the
    array was closed. *)
Inductive event :=
| Opened (h c : N)
| OpenedArray (h c : N) (size : option N)
| Entered (h : N) (arg : option N) (i : N)
| Closed (h : N)
| ClosedArray (h : N)
| Other.

(** The open section or array of an object, the size of the array and the number of its sections begun
    so far. *)
Record open_section := OS { os_active : option N; os_size : N; os_begun : N }.
Definition no_section : open_section := OS None 0 0.

(** The section asked for is the next one: the open array, the right number, below the size. *)
Definition is_next (g : open_section) (arg : option N) (i : N) : bool :=
  hdl_eqb (os_active g) arg && (i =? os_begun g) && (i <? os_size g).
Definition track1 (x : N) (g : open_section) (e : event) : open_section :=
  match e with
  | Opened h c => if h =? x then OS (Some c) (os_size g) (os_begun g) else g
  | OpenedArray h c (Some n) => if h =? x then OS (Some c) n 0 else g
  | OpenedArray h c None => if h =? x then OS (Some c) 0 (os_begun g) else g
  | Entered h arg i => if (h =? x) && is_next g arg i then OS (os_active g) (os_size g) (os_begun g + 1) else g
  | Closed h => if h =? x then OS None (os_size g) (os_begun g) else g
  | ClosedArray h => if h =? x then no_section else g
  | Other => g
  end.
Definition track (x : N) (l : list event) : open_section := fold_left (track1 x) l no_section.

(** The events of the writer calls: a handle that is not nullptr, or true, is success. *)
Definition wevent (p : wcall * wret) : event :=
  match p with
  | (WBegin h _, WHandle (Some c)) => Opened h c
  | (WBeginArr h _ size _, WHandle (Some c)) => OpenedArray h c (if size =? ones then None else Some size)
  | (WBeginIn h arg i, _) => Entered h arg i
  | (WEnd h _, WBool true) => Closed h
  | (WEndArr h _, WBool true) => ClosedArray h
  | _ => Other
  end.
Definition wtrack (x : N) (hist : list (wcall * wret)) : open_section := track x (map wevent hist).

(** The events of the reader calls. *)
Definition revent (p : rcall * rret) : event :=
  match p with
  | (RBegin h _ _, RHandle (Some c) _ _) => Opened h c
  | (RBeginArr h _ _ _, RHandle (Some c) size _) => OpenedArray h c (Some size)
  | (RBeginIn h arg i _, _) => Entered h arg i
  | (REnd h _, RBool true) => Closed h
  | (REndArr h _, RBool true) => ClosedArray h
  | _ => Other
  end.
Definition rtrack (x : N) (hist : list (rcall * rret)) : open_section := track x (map revent hist).
(** No BeginReadSectionsArray has failed. *)
Definition no_failed_array (hist : list (rcall * rret)) : Prop :=
  Forall (fun p => match p with (RBeginArr _ _ _ _, RHandle _ _ ok) => ok = true | _ => True end) hist.
