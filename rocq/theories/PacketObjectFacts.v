(** * Objects in packets: proofs of C47. *)
From Verif Require Import Base Bytes BytesFacts Values Streams StreamFacts Types Format EntityWriter EntityReader Items ItemSpec Sections SectionReadFacts SectionTheorems Documents DocSpec
  Keys Containers Classes Table DynTypes Varying EntityGen EntitySpec EntityFacts EntityCodec CodecFacts Loader Packet PacketSpec PacketFacts.
Local Open Scope N_scope.

Section S.
Context (U : forall t, umap_impl (key t)).
Lemma t_packet_object s x init lim big : s_sound s -> s_ok s x -> s_fits s x -> room init lim (len (nodes_bytes big (s_doc s x))) ->
  exists s0 st, fresh init lim big = Done s0 /\ m_write (smf U s) 0 x (w_open s0) = Done (true, st) /\
    let obj := ws_data (w_stream st) in
    forall junk pre h ids post, len junk = 3 -> header_ok h -> magic_right h -> big_endian h = big -> len ids = 32 ->
      number big (h_size h) = 32 + len obj -> len pre + 112 + len obj + len post < two64 ->
      exists packet rs, let data := pre ++ header_bytes h ++ ids ++ obj ++ post in
        from_memory_stream junk (RS data (len pre) false) = Done (packet, Loader.SOk, rs) /\ rs = RS data (len pre + 48) big /\
        forall en old, s_ok s old -> s_dest s old -> 4 * len obj <= e_lim en ->
          exists y st', m_read (smf U s) en 0 old (r_open rs) = Done (true, y, st') /\ s_ident s y x /\
            r_stream st' = RS data (len pre + 48 + len obj) big.
Proof.
  intros Hs Hx Hf Hr. destruct (t_s_roundtrip U s x init lim big Hs Hx Hf Hr) as (s0 & st & E0 & E1 & Ed & _).
  exists s0, st. split; [exact E0|]. split; [exact E1|]. cbv zeta. rewrite Ed. set (b := nodes_bytes big (s_doc s x)) in *.
  intros junk pre h ids post J Hh Hm Hb Hi Hn Hl.
  assert (Lr : len (ids ++ b ++ post) = 32 + len b + len post) by (rewrite !len_app; lia).
  destruct (header_read junk pre h (ids ++ b ++ post) false Hh J ltac:(rewrite Lr; lia)) as (st1 & p & f & E & X). cbn [orb] in X. rewrite Hb, Hn, Lr in X.
  destruct X as [(M & D & -> & -> & ->)|[(M & D & _)|(M & _)]]; [|lia|contradiction].
  replace (N.min (len pre + 16 + (32 + len b + len post)) (len pre + 48)) with (len pre + 48) in * by lia.
  eexists _, _. split; [exact E|]. split; [reflexivity|]. intros en old Ho Hd He.
  assert (Lh : len (header_bytes h) = 16).
  { unfold header_bytes, header_ok in *. destruct (h_magic h) as ((? & ?) & ?), (h_padding h) as ((? & ?) & ?). rewrite len_app. unfold len. rewrite Hh. reflexivity. }
  set (pre' := pre ++ header_bytes h ++ ids). assert (Lp : len pre' = len pre + 48) by (unfold pre'; rewrite !len_app; lia).
  set (rs := RS (pre ++ header_bytes h ++ ids ++ b ++ post) (len pre + 48) big).
  assert (Ers : r_stream (r_open rs) = rs_at pre' (b ++ post) big).
  { unfold rs_at. cbn [r_open r_stream]. unfold rs. rewrite Lp. unfold pre'. rewrite <- !app_assoc. reflexivity. }
  destruct (proj1 (reads_both U) s old x Hs Ho Hd Hx Hf en 0 [] (rf_new 0 (rs_size rs)) (r_open rs) pre' post big (rready_open rs) Ers He ltac:(rewrite Lp; fold b; lia))
    as (y & st' & R & (_ & Q) & (S' & _)).
  exists y, st'. split; [exact R|]. split; [exact Q|]. rewrite S'. fold b. unfold rs_at. rewrite len_app, Lp. unfold pre'. rewrite <- !app_assoc. reflexivity.
Qed.
End S.
