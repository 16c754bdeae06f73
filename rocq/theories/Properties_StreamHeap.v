(** * Property C61: read streams are windows onto the memory of write streams.
    Statements only; each proof is a lemma of StreamHeapProps.v.
    Reading guide: [scmd] is a program's step (construct, destroy, write, look, make a read stream of a write stream's
    data, read); [m_run] is the model, with areas of memory and pointers (StreamHeap.v); [s_run] is what the program
    means, byte files and windows onto them (StreamHeapSpec.v); [lim] is the largest area that can be allocated. *)
From Verif Require Import Base Bytes Values FileSpec ReadSpec Streams StreamHeap StreamHeapSpec StreamHeapProps.
Open Scope N_scope.

(** C61. Every program with any number of write streams and read streams on their data means what the specification
    says: each write stream is a byte file of its own; a read stream sees the bytes the file has now, up to the size it
    had when the read stream was made, as long as the write stream lives and has not grown out of its room; reading
    through it after that is undefined; bad_alloc is thrown only if a stream has to move and the memory does not suffice. *)
Theorem C61_streams_and_views : forall lim cs,
  lim <= 2 ^ 62 -> Forall (scmd_ok lim) cs ->
  s_run lim cs s_none (do x <- m_run lim cs m_none; Done (fst x)).
Proof. exact c61_streams_and_views. Qed.
Print Assumptions C61_streams_and_views.

(** C61. A write stream that stays within its initial size: every view of it can be used as long as it lives, whatever is
    written in between; nothing is undefined and nothing is thrown. *)
Theorem C61_within_room : forall lim init cs,
  0 < init -> init <= lim -> lim <= 2 ^ 62 -> Forall (scmd_ok lim) cs -> one_writer 0 cs ->
  Forall (fun n => n <= init) (f_sizes (File [] 0, false) (writes cs)) ->
  exists xs m, m_run lim (SNew init :: cs) m_none = Done (xs, m).
Proof. exact c61_within_room. Qed.
Print Assumptions C61_within_room.

(** C61. Appending to a write stream changes nothing of what a view of the bytes before sees. *)
Theorem C61_appending : forall f fl o n,
  n <= f_pos f -> f_pos f <= len (f_bytes f) ->
  take n (f_bytes (fst (f_step (f, fl) o))) = take n (f_bytes f).
Proof. exact c61_appending. Qed.
Print Assumptions C61_appending.

(** C61. Writing to a write stream changes nothing of what views of other write streams see. *)
Theorem C61_isolated : forall lim w op S x S1 v,
  s_step lim (SWrite w op) S (Done (x, S1)) -> sv_writer v <> w -> sees S1 v = sees S v.
Proof. exact c61_isolated. Qed.
Print Assumptions C61_isolated.

(** C61. After every program each write stream has exactly one area of memory, no two have the same, and there are no
    other areas: growing releases the old area, nothing is leaked. *)
Theorem C61_owned : forall lim cs xs m,
  lim <= 2 ^ 62 -> Forall (scmd_ok lim) cs -> m_run lim cs m_none = Done (xs, m) ->
  (forall w o, nth_error (mm_writers m) w = Some (Some o) ->
     exists a x, wo_data o = Some a /\ ar_get (mm_areas m) a = Some x) /\
  (forall w w' o o' a, nth_error (mm_writers m) w = Some (Some o) -> nth_error (mm_writers m) w' = Some (Some o') ->
     wo_data o = Some a -> wo_data o' = Some a -> w = w') /\
  (forall a x, ar_get (mm_areas m) a = Some x ->
     exists w o, nth_error (mm_writers m) w = Some (Some o) /\ wo_data o = Some a).
Proof. exact c61_owned. Qed.
Print Assumptions C61_owned.

(** C61. When all write streams are destroyed all memory is released. *)
Theorem C61_nothing_left : forall lim cs xs m,
  lim <= 2 ^ 62 -> Forall (scmd_ok lim) cs -> m_run lim cs m_none = Done (xs, m) ->
  Forall (fun o => o = None) (mm_writers m) -> Forall (fun x => x = None) (mm_areas m).
Proof. exact c61_nothing_left. Qed.
Print Assumptions C61_nothing_left.

(** C61, finding: GetData is no longer valid after the stream has grown out of its room, or is destroyed; reading through
    a read stream made before is undefined. *)
Theorem C61_grown_refuted :
  m_run 64 [SNew 4; SWrite 0 (OWrite (KW W32) [SInt W32 7]); SView 0 false;
            SWrite 0 (OWrite (KW W8) [SInt W8 1]); SRead 0 (RRead (KW W32) 1 (rep x00 4))] m_none = Undef.
Proof. exact c61_grown_refuted. Qed.
Print Assumptions C61_grown_refuted.
Theorem C61_gone_refuted :
  m_run 64 [SNew 4; SWrite 0 (OWrite (KW W32) [SInt W32 7]); SView 0 false; SDel 0; SRead 0 RPeek] m_none = Undef.
Proof. exact c61_gone_refuted. Qed.
Print Assumptions C61_gone_refuted.

(** C61, finding: MemoryWriteStream can be copied, and the copy has the same area: destroying both releases it twice,
    writing after the other was destroyed, or has grown, writes to released memory. *)
Theorem C61_copy_refuted :
  m_run 64 [SNew 4; SCopy 0; SDel 0; SDel 1] m_none = Undef /\
  m_run 64 [SNew 4; SCopy 0; SDel 1; SWrite 0 (OWrite (KW W8) [SInt W8 1])] m_none = Undef /\
  m_run 64 [SNew 4; SCopy 0; SWrite 0 (OWrite (KW W64) [SInt W64 1]); SWrite 1 (OWrite (KW W8) [SInt W8 1])] m_none = Undef.
Proof. exact c61_copy_refuted. Qed.
Print Assumptions C61_copy_refuted.

(** ** Witnesses *)

(** Two write streams, one of them growing; a view is made, the stream is written behind and within what the view sees:
    the view sees the overwritten bytes, and not the appended ones. *)
Definition ex_prog : list scmd :=
  [SNew 16; SNew 2;
   SWrite 0 (OWrite (KW W16) [SInt W16 258; SInt W16 772]); SView 0 true;
   SWrite 1 (OFlip true); SWrite 1 (OWrite (KW W32) [SInt W32 1; SInt W32 2]); SState 1;
   SWrite 0 (OWrite (KW W8) [SInt W8 9]); SWrite 0 (OSeek 2); SWrite 0 (OWrite (KW W8) [SInt W8 7]);
   SRead 0 (RRead (KW W16) 2 (rep x00 4)); SRead 0 REof; SDel 1; SState 0; SDel 0; SRead 0 (RSeek 1)].
Example ex_c61 : Forall (scmd_ok 1024) ex_prog /\
  exists m, m_run 1024 ex_prog m_none =
    Done ([XUnit; XUnit; XUnit; XUnit; XUnit; XUnit;
           XState [x00; x00; x00; x01; x00; x00; x00; x02] 8 8 true;
           XUnit; XUnit; XUnit;
           XRead (ORead 2 [x01; x02; x03; x07]); XRead (OBool true); XUnit;
           XState [x02; x01; x07; x03; x09] 5 3 false; XUnit; XRead (OBool true)], m) /\
    Forall (fun x => x = None) (mm_areas m) /\ mm_areas m = [None; None; None].
Proof.
  split.
  - unfold ex_prog. repeat apply Forall_cons; try apply Forall_nil; cbn [scmd_ok wop_ok rop_ok];
      try exact Logic.I; try (split; [exact Logic.I|first [exact Logic.I|reflexivity]]);
      try (split; [repeat constructor|vm_compute; reflexivity]).
    vm_compute. discriminate.
  - eexists. split; [vm_compute; reflexivity|]. split; [repeat constructor|reflexivity].
Qed.

(** The hypotheses of C61_within_room. *)
Definition ex_prog1 : list scmd :=
  [SWrite 0 (OWrite (KW W16) [SInt W16 258]); SView 0 false; SWrite 0 (OWrite (KW W32) [SInt W32 5]);
   SRead 0 (RRead (KW W16) 1 (rep x00 2)); SView 0 true; SWrite 0 (OSeek 0); SRead 1 RPeek; SState 0].
Example ex_c61_room : Forall (scmd_ok 8) ex_prog1 /\ one_writer 0 ex_prog1 /\
  Forall (fun n => n <= 8) (f_sizes (File [] 0, false) (writes ex_prog1)).
Proof.
  split; [|split].
  - unfold ex_prog1. repeat apply Forall_cons; try apply Forall_nil; cbn [scmd_ok wop_ok rop_ok];
      try exact Logic.I; try (split; [exact Logic.I|reflexivity]);
      try (split; [repeat constructor|vm_compute; reflexivity]).
    vm_compute. discriminate.
  - cbn. repeat split; lia.
  - repeat constructor; vm_compute; discriminate.
Qed.
