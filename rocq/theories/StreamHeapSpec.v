(** * StreamHeapSpec: what a program with several write streams and read streams on their data means. Specification for
    C61: byte files (FileSpec.v) and windows onto them; no memory, no addresses. [scmd], [sout] and [touches] are the
    calls, their results and which calls look at the data. *)
From Verif Require Import Base Bytes Values FileSpec ReadSpec Streams StreamHeap.
Open Scope N_scope.

(** A write stream: a byte file, the byte order, a size up to which it can grow without moving its data, and how often
    it has moved its data. *)
Record swriter := SW { sw_file : file; sw_flip : bool; sw_cap : N; sw_moves : nat }.

(** A read stream on a write stream: the first [sv_size] bytes of the file of writer [sv_writer], for as long as the
    writer lives and has moved its data [sv_moves] times. *)
Record sview := SV { sv_writer : nat; sv_moves : nat; sv_size : N; sv_pos : N; sv_flip : bool }.

Record sstate := SS { ss_writers : list (option swriter); ss_views : list sview }.

(** The bytes a read stream sees: those the file has at this moment, not those of the moment of its construction. *)
Definition sees (S : sstate) (v : sview) : option (list byte) :=
  match nth_error (ss_writers S) (sv_writer v) with
  | Some (Some w) => if Nat.eqb (sw_moves w) (sv_moves v)
                     then Some (take (sv_size v) (f_bytes (sw_file w))) else None
  | _ => None
  end.

(** After a call the file is [f]: it has not moved if it fits the old room, and has moved into a larger room otherwise. *)
Definition grown (w : swriter) (f : file) (fl : bool) (w' : swriter) : Prop :=
  sw_file w' = f /\ sw_flip w' = fl /\
  (len (f_bytes f) <= sw_cap w -> sw_cap w' = sw_cap w /\ sw_moves w' = sw_moves w) /\
  (sw_cap w < len (f_bytes f) -> len (f_bytes f) <= sw_cap w' /\ sw_moves w' = S (sw_moves w)).

(** One step, when areas have at most [lim] bytes. Using a write stream that was destroyed is undefined. bad_alloc is
    thrown for an initial size that cannot be allocated, and possibly when the file has to move and gets larger than half
    of [lim]. *)
Definition s_step (lim : N) (c : scmd) (S : sstate) (r : res (sout * sstate)) : Prop :=
  match c with
  | SNew init =>
    (init = 0 \/ lim < init) /\ r = Throw \/
    0 < init <= lim /\ r = Done (XUnit, SS (ss_writers S ++ [Some (SW (File [] 0) false init 0)]) (ss_views S))
  | SCopy _ => False
  | SDel w =>
    match nth_error (ss_writers S) w with
    | Some (Some _) => r = Done (XUnit, SS (set_nth w None (ss_writers S)) (ss_views S))
    | _ => r = Undef
    end
  | SWrite w op =>
    match nth_error (ss_writers S) w with
    | Some (Some v) =>
      (sw_cap v < len (f_bytes (fst (f_step (sw_file v, sw_flip v) op))) /\
       lim < 2 * len (f_bytes (fst (f_step (sw_file v, sw_flip v) op)))) /\ r = Throw \/
      exists v', grown v (fst (f_step (sw_file v, sw_flip v) op)) (snd (f_step (sw_file v, sw_flip v) op)) v' /\
        r = Done (XUnit, SS (set_nth w (Some v') (ss_writers S)) (ss_views S))
    | _ => r = Undef
    end
  | SState w =>
    match nth_error (ss_writers S) w with
    | Some (Some v) =>
      r = Done (XState (f_bytes (sw_file v)) (len (f_bytes (sw_file v))) (f_pos (sw_file v)) (sw_flip v), S)
    | _ => r = Undef
    end
  | SView w flip =>
    match nth_error (ss_writers S) w with
    | Some (Some v) =>
      r = Done (XUnit, SS (ss_writers S)
                          (ss_views S ++ [SV w (sw_moves v) (len (f_bytes (sw_file v))) 0 flip]))
    | _ => r = Undef
    end
  | SRead i op =>
    match nth_error (ss_views S) i with
    | Some v =>
      match sees S v with
      | None => touches op (sv_size v) (sv_pos v) = true /\ r = Undef \/
                touches op (sv_size v) (sv_pos v) = false /\
                exists x s', rcall_spec op (RS (rep x00 (sv_size v)) (sv_pos v) (sv_flip v)) x s' /\
                  r = Done (XRead x, SS (ss_writers S)
                        (set_nth i (SV (sv_writer v) (sv_moves v) (sv_size v) (rs_pos s') (rs_flip s')) (ss_views S)))
      | Some bytes =>
        exists x s', rcall_spec op (RS bytes (sv_pos v) (sv_flip v)) x s' /\
          r = Done (XRead x, SS (ss_writers S)
                (set_nth i (SV (sv_writer v) (sv_moves v) (sv_size v) (rs_pos s') (rs_flip s')) (ss_views S)))
      end
    | None => r = Undef
    end
  end.

(** A program: what it may return; undefined behaviour or an exception ends it. *)
Fixpoint s_run (lim : N) (cs : list scmd) (S : sstate) (r : res (list sout)) : Prop :=
  match cs with
  | [] => r = Done []
  | c :: cs' =>
    s_step lim c S Undef /\ r = Undef \/
    s_step lim c S Throw /\ r = Throw \/
    exists x S1 r', s_step lim c S (Done (x, S1)) /\ s_run lim cs' S1 r' /\ r = (do xs <- r'; Done (x :: xs))
  end.

(** Nothing exists before the program. *)
Definition s_none : sstate := SS [] [].

(** The calls are as a C++ program can make them when areas have at most [lim] bytes: values of the right type, arrays
    that fit memory, destinations large enough (for read streams as in C04), no copies of write streams. *)
Definition scmd_ok (lim : N) (c : scmd) : Prop :=
  match c with
  | SNew _ | SDel _ | SState _ | SView _ _ => True
  | SCopy _ => False
  | SWrite _ o => wop_ok o /\ match o with OWrite _ xs => len (images xs) < 2 ^ 62 | OSeek p => p < two64 | OFlip _ => True end
  | SRead _ o => rop_ok lim o
  end.

(** A program on one write stream and views of it that are made before they are used. *)
Fixpoint one_writer (views : nat) (cs : list scmd) : Prop :=
  match cs with
  | [] => True
  | SWrite 0 _ :: cs' | SState 0 :: cs' => one_writer views cs'
  | SView 0 _ :: cs' => one_writer (S views) cs'
  | SRead r _ :: cs' => (r < views)%nat /\ one_writer views cs'
  | _ => False
  end.

(** The calls on the write stream among them. *)
Fixpoint writes (cs : list scmd) : list wop :=
  match cs with
  | [] => []
  | SWrite _ o :: cs' => o :: writes cs'
  | _ :: cs' => writes cs'
  end.
