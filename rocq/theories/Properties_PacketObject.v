(** * C47: objects in packets keep their values whatever the byte order of the packet. *)
From Verif Require Import Base Bytes BytesFacts Values Streams Types Format EntityWriter EntityReader Items ItemSpec Sections Documents DocSpec
  Keys KeySpec Containers ValueEqSpec StdSet Graph Classes Table IndexedVector DynTypes Varying VaryingSpec EntityGen EntitySpec EntityFacts EntityCodec
  Loader Packet PacketSpec PacketObjectFacts Properties_Keys Properties_Entity Properties_Varying Properties_Table Properties_Generated Properties_Store Properties_Packet.
Open Scope N_scope.

(** Any object of any class (as in C32) that was written in either byte order and put into a packet, that is, behind a
    header that names this byte order and the size, and two ids: the packet is accepted, wherever it stands in a stream
    and whatever follows it, the stream then stands at the object and is switched to its byte order, and Read, into any
    object, gives an identical object and uses exactly its bytes. *)
Theorem C47_packet_object : forall U s x init lim big, s_sound s -> s_ok s x -> s_fits s x -> room init lim (len (nodes_bytes big (s_doc s x))) ->
  exists s0 st, fresh init lim big = Done s0 /\ m_write (smf U s) 0 x (w_open s0) = Done (true, st) /\
    let obj := ws_data (w_stream st) in
    forall junk pre h ids post, len junk = 3 -> header_ok h -> magic_right h -> big_endian h = big -> len ids = 32 ->
      PacketSpec.number big (h_size h) = 32 + len obj -> len pre + 112 + len obj + len post < two64 ->
      exists packet rs, let data := pre ++ header_bytes h ++ ids ++ obj ++ post in
        from_memory_stream junk (RS data (len pre) false) = Done (packet, Loader.SOk, rs) /\ rs = RS data (len pre + 48) big /\
        forall en old, s_ok s old -> s_dest s old -> 4 * len obj <= e_lim en ->
          exists y st', m_read (smf U s) en 0 old (r_open rs) = Done (true, y, st') /\ s_ident s y x /\
            r_stream st' = RS data (len pre + 48 + len obj) big.
Proof. exact t_packet_object. Qed.
Print Assumptions C47_packet_object.

(** Finding: with the wrong flag in the header the packet is still accepted and the number in it is read as another one. *)
Definition node_header (flags : byte) (size : list byte) : header := Header (x49, x53, x44) x00 flags (x00, x00, x00) size.
Definition one_bytes (big : bool) : list byte := nodes_bytes big (s_doc OneNumber (number [x01; x00; x00; x00])).
Theorem C47_wrong_flag_refuted : exists rs st',
  let data := header_bytes (node_header x00 [x28; x00; x00; x00; x00; x00; x00; x00]) ++ rep x00 32 ++ one_bytes true in
  from_memory_stream [x00; x00; x00] (RS data 0 false) = Done (None, Loader.SOk, rs) /\
  m_read (smf ulasts OneNumber) env0 0 (m_new (smf ulasts OneNumber)) (r_open rs) = Done (true, number [x00; x00; x00; x01], st').
Proof. eexists _, _. cbv zeta. split; vm_compute; reflexivity. Qed.
Print Assumptions C47_wrong_flag_refuted.

(** The hypotheses are met: the number 1 in a big endian packet. *)
Example C47_example : s_sound OneNumber /\ s_ok OneNumber (number [x01; x00; x00; x00]) /\ s_fits OneNumber (number [x01; x00; x00; x00]) /\
  room 64 100000 (len (one_bytes true)) /\
  (let h := node_header x01 [x00; x00; x00; x00; x00; x00; x00; n2b (32 + len (one_bytes true))] in
   header_ok h /\ magic_right h /\ big_endian h = true /\ PacketSpec.number true (h_size h) = 32 + len (one_bytes true) /\
   exists rs st', from_memory_stream [x00; x00; x00] (RS (header_bytes h ++ rep x00 32 ++ one_bytes true) 0 false) = Done (None, Loader.SOk, rs) /\
     m_read (smf ulasts OneNumber) env0 0 (m_new (smf ulasts OneNumber)) (r_open rs) = Done (true, number [x01; x00; x00; x00], st')) /\
  one_bytes true <> one_bytes false.
Proof.
  split; [repeat constructor; vm_compute; discriminate|]. split; [repeat split; vm_compute; auto|]. split; [exact Logic.I|].
  split; [repeat split; vm_compute; congruence|]. split; [|vm_compute; discriminate]. cbv zeta.
  split; [reflexivity|]. split; [reflexivity|]. split; [vm_compute; reflexivity|]. split; [vm_compute; reflexivity|].
  eexists _, _. split; vm_compute; reflexivity.
Qed.
