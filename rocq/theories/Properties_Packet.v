(** * C29: packet headers. *)
From Verif Require Import Base Bytes BytesFacts Values FileSpec Streams Loader Packet PacketSpec PacketFacts.
Open Scope N_scope.

(** C29: for a stream of any content that still holds a whole header and whose byte order is the machine's:
    the packet is accepted exactly if the magic is right and the declared data size (read in the packet's own
    byte order) fits into the rest of the stream, otherwise refused as invalid; the byte order is flipped
    exactly if the packet says big endian (and the magic is right). The side condition excludes sizes for which
    position + size leaves 64 bits (see C29_size_wraps_refuted). *)
Theorem C29_header_checks : forall junk pre h rest, header_ok h -> len junk = 3 ->
  len pre + 64 + len rest < two64 ->
  len pre + 16 + number (big_endian h) (h_size h) < two64 ->
  exists packet st p flipped,
    from_memory_stream junk (RS (pre ++ header_bytes h ++ rest) (len pre) false)
      = Done (packet, st, RS (pre ++ header_bytes h ++ rest) p flipped) /\
    (st = SOk <-> magic_right h /\ number (big_endian h) (h_size h) <= len rest) /\
    (st <> SOk -> st = EInvalid) /\
    (magic_right h -> flipped = big_endian h) /\
    (~ magic_right h -> flipped = false) /\
    (st = SOk -> p = N.min (len pre + 16 + len rest) (len pre + 48)).
Proof.
  intros junk pre h rest H J S W. destruct (header_read junk pre h rest false H J S) as (st & p & f & E & X). cbn [orb] in X.
  exists None, st, p, f. split; [exact E|].
  destruct X as [(M & D & -> & -> & ->)|[(M & D & D' & -> & -> & ->)|(M & -> & -> & ->)]].
  - split; [split; [split; [exact M|destruct D as [D|D]; [exact D|exfalso; lia]]|auto]|]. repeat split; auto; congruence.
  - split; [split; [discriminate|intros (_ & D2); lia]|]. repeat split; auto; intros; [tauto|discriminate].
  - split; [split; [discriminate|tauto]|]. repeat split; auto; intros; [tauto|discriminate].
Qed.
Print Assumptions C29_header_checks.

(** C29: exactly what happens with any declared size and any byte order set before the call: the order is only
    ever switched on, and a size is also accepted if position + size passes 2^64. *)
Theorem C29_header_exact : forall junk pre h rest flip, header_ok h -> len junk = 3 ->
  len pre + 64 + len rest < two64 ->
  let big := flip || big_endian h in
  let size := number big (h_size h) in
  exists packet st p flipped,
    from_memory_stream junk (RS (pre ++ header_bytes h ++ rest) (len pre) flip)
      = Done (packet, st, RS (pre ++ header_bytes h ++ rest) p flipped) /\
    (st = SOk \/ st = EInvalid) /\
    (st = SOk <-> magic_right h /\ (size <= len rest \/ two64 <= len pre + 16 + size)) /\
    (magic_right h -> flipped = big) /\ (~ magic_right h -> flipped = flip).
Proof.
  intros junk pre h rest flip H J S big size. destruct (header_read junk pre h rest flip H J S) as (st & p & f & E & X).
  fold big in X. fold size in X. exists None, st, p, f. split; [exact E|].
  destruct X as [(M & D & -> & -> & ->)|[(M & D & D' & -> & -> & ->)|(M & -> & -> & ->)]].
  - split; [auto|]. split; [tauto|]. tauto.
  - split; [auto|]. split; [split; [discriminate|intros (_ & D2); lia]|]. tauto.
  - split; [auto|]. split; [split; [discriminate|tauto]|]. tauto.
Qed.
Print Assumptions C29_header_exact.

(** C29: no byte string, however short, makes the reader touch memory outside the stream; it moves only
    forward and never behind the end, and the stream's bytes are unchanged. *)
Theorem C29_total : forall junk s, len junk = 3 -> rs_pos s <= rs_size s -> rs_size s + 64 < two64 ->
  exists packet st p f, from_memory_stream junk s = Done (packet, st, RS (rs_data s) p f) /\
    (st = SOk \/ st = EInvalid) /\ rs_pos s <= p <= rs_size s.
Proof. intros junk s J P S. destruct (never_undefined junk s J P S) as (st & p & f & H). exists None, st, p, f. exact H. Qed.
Print Assumptions C29_total.

(** A big endian header saying 32 bytes. *)
Definition big_header : header := Header (x49, x53, x44) x00 x01 (x00, x00, x00) [x00; x00; x00; x00; x00; x00; x00; x20].

Example big_packet : header_ok big_header /\ big_endian big_header = true /\ number true (h_size big_header) = 32 /\
  magic_right big_header /\
  match from_memory_stream [x00; x00; x00] (RS (header_bytes big_header ++ rep x07 32) 0 false) with
  | Done (_, st, s) => st = SOk /\ rs_flip s = true /\ rs_pos s = 48
  | _ => False end /\
  match from_memory_stream [x00; x00; x00] (RS (header_bytes big_header ++ rep x07 31) 0 false) with
  | Done (_, st, s) => st = EInvalid
  | _ => False end /\
  match from_memory_stream [x00; x00; x00] (RS (x00 :: tl (header_bytes big_header) ++ rep x07 31) 0 false) with
  | Done (_, st, s) => st = EInvalid /\ rs_flip s = false
  | _ => False end.
Proof. vm_compute. repeat split; reflexivity. Qed.

(** C29, finding: a declared size so large that position + size wraps around is accepted. *)
Theorem C29_size_wraps_refuted : exists h, header_ok h /\ magic_right h /\ number false (h_size h) = two64 - 1 /\
  forall junk, len junk = 3 -> exists s, from_memory_stream junk (RS (header_bytes h) 0 false) = Done (None, SOk, s).
Proof.
  set (h := Header (x49, x53, x44) x00 x00 (x00, x00, x00) (rep xff 8)). exists h.
  split; [reflexivity|]. split; [reflexivity|]. split; [reflexivity|]. intros junk J.
  destruct (C29_header_exact junk [] h [] false) as (pk & st & p & f & E & _ & (_ & X) & _); [reflexivity|exact J|reflexivity|].
  assert (st = SOk) as -> by (apply X; split; [reflexivity|right; vm_compute; discriminate]).
  destruct (never_undefined junk (RS (header_bytes h) 0 false) J) as (st' & p' & f' & E' & _); [vm_compute; discriminate|reflexivity|].
  cbn [app] in E. rewrite app_nil_r in E. change (len []) with 0 in E. exists (RS (header_bytes h) p f). rewrite E in E' |- *.
  injection E' as -> _ _ _. reflexivity.
Qed.
Print Assumptions C29_size_wraps_refuted.

(** C29, finding: the header need not be there: the three bytes "ISD" alone are accepted as a packet, ... *)
Theorem C29_truncated_refuted : forall junk, len junk = 3 ->
  from_memory_stream junk (RS isd_magic 0 false) = Done (None, SOk, RS isd_magic 3 false).
Proof.
  intros junk J. unfold len in J. destruct junk as [|a [|b [|c [|]]]]; cbn [length] in J; try lia. vm_compute. reflexivity.
Qed.
Print Assumptions C29_truncated_refuted.

(** ... and the empty stream is accepted or refused depending on indeterminate memory. *)
Theorem C29_empty_stream_refuted : 
  from_memory_stream [x49; x53; x44] (RS [] 0 false) = Done (None, SOk, RS [] 0 false) /\
  from_memory_stream [x00; x00; x00] (RS [] 0 false) = Done (None, EInvalid, RS [] 0 false).
Proof. split; vm_compute; reflexivity. Qed.
Print Assumptions C29_empty_stream_refuted.

(** C29, finding: a stream whose order was switched by an earlier big endian packet reads the next little
    endian packet's size reversed: a packet of 32 bytes that is there is refused. *)
Theorem C29_stays_flipped_refuted : exists h, header_ok h /\ magic_right h /\ big_endian h = false /\ number false (h_size h) = 32 /\
  forall junk, len junk = 3 -> exists s,
    from_memory_stream junk (RS (header_bytes h ++ rep x00 32) 0 true) = Done (None, EInvalid, s).
Proof.
  exists (Header (x49, x53, x44) x00 x00 (x00, x00, x00) [x20; x00; x00; x00; x00; x00; x00; x00]).
  split; [reflexivity|]. split; [reflexivity|]. split; [reflexivity|]. split; [reflexivity|]. intros junk J.
  unfold len in J. destruct junk as [|a [|b [|c [|]]]]; cbn [length] in J; try lia. 
  match goal with |- exists s, ?x = _ => let y := eval vm_compute in x in change x with y end. eexists. reflexivity.
Qed.
Print Assumptions C29_stays_flipped_refuted.

(** C29, finding: the reader never returns a packet, whatever it read, and the writer never writes one: both
    only report Ok. *)
Theorem C29_no_packet_refuted : forall junk s packet st s' w,
  (from_memory_stream junk s = Done (packet, st, s') -> packet = None) /\ to_memory_stream w = Done (SOk, w).
Proof.
  intros junk s packet st s' w. split; [|reflexivity]. unfold from_memory_stream.
  destruct (rs_read (KW W8) 3 junk s) as [((? & m) & s1)| |]; cbn [bind]; try discriminate.
  destruct (rs_u8 s1) as [(? & s2)| |]; cbn [bind]; try discriminate.
  destruct (rs_u8 s2) as [(fl & s3)| |]; cbn [bind]; try discriminate.
  destruct (rs_read (KW W8) 3 (rep x00 3) s3) as [((? & ?) & s4)| |]; cbn [bind]; try discriminate.
  destruct (negb (same_bytes m isd_magic)); [congruence|].
  match goal with |- context[rs_u64 ?x] => destruct (rs_u64 x) as [(d & s6)| |] end; cbn [bind]; try discriminate.
  destruct (_ <? _); [congruence|].
  destruct (rs_read1 KUuid s6) as [(? & s7)| |]; cbn [bind]; try discriminate.
  destruct (rs_read1 KUuid s7) as [(? & s8)| |]; cbn [bind]; try discriminate. congruence.
Qed.
Print Assumptions C29_no_packet_refuted.
