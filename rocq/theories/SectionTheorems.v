(** * Proofs of the theorems in Properties_Sections.v. *)
From Verif Require Import Base Bytes BytesFacts Values Streams FileSpec ReadSpec StreamFacts StreamProps Types Format
  Accept EntityWriter EntityReader EntityWriterFacts PackFacts ArrayWriterFacts EntityReaderFacts EntitySafety ArraySafety
  ReadTotal Items ItemSpec EntityProps EntityKeys EntityTheorems Sections Documents DocSpec SectionFacts SectionReadFacts.
Open Scope N_scope.

Lemma wready_open s : wready 0 [] (wf_new 0 s) (w_open s).
Proof. repeat split; try reflexivity; [intros []|repeat constructor]. Qed.
Lemma rready_open s : rready 0 [] (rf_new 0 (rs_size s)) (r_open s).
Proof. repeat split; try reflexivity; [intros []|repeat constructor]. Qed.

Lemma t_write_doc init lim fl w :
  nodes_ok w -> room init lim (len (nodes_bytes fl w)) ->
  exists s0 st, fresh init lim fl = Done s0 /\ write_nodes 0 w (w_open s0) = Done (true, st) /\
    ws_data (w_stream st) = nodes_bytes fl w /\ ws_pos (w_stream st) = len (nodes_bytes fl w).
Proof.
  intros Hok (R1 & R2 & R3 & R4). destruct (fresh_at init lim fl R1 R2 R3) as (s0 & E0 & H0).
  destruct write_doc_at as (_ & W & _).
  destruct (W w 0 [] (wf_new 0 s0) (w_open s0) [] fl lim (wready_open s0) H0 Hok) as (st & E & (H & _)); [rewrite len_nil; lia|].
  exists s0, st. cbn [app] in H. split; [exact E0|]. split; [exact E|].
  split; [apply (ws_at_data _ _ _ _ H)|apply (ws_at_pos _ _ _ _ H)].
Qed.

Lemma t_doc init lim fl w :
  nodes_ok w -> room init lim (len (nodes_bytes fl w)) ->
  exists s0 st, fresh init lim fl = Done s0 /\ write_nodes 0 w (w_open s0) = Done (true, st) /\
    ws_data (w_stream st) = nodes_bytes fl w /\
    forall e r post, nodes_mirror w r -> read_room e (ws_pos (w_stream st)) (ws_pos (w_stream st) + len post) ->
      exists st', read_nodes e 0 r (r_open (RS (ws_data (w_stream st) ++ post) 0 fl)) = Done (true, nodes_seen w, st') /\
        r_stream st' = RS (ws_data (w_stream st) ++ post) (ws_pos (w_stream st)) fl.
Proof.
  intros Hok Hr. destruct (t_write_doc init lim fl w Hok Hr) as (s0 & st & E0 & E & Hd & Hp).
  exists s0, st. split; [exact E0|]. split; [exact E|]. split; [exact Hd|]. intros e r post M (R1 & R2). rewrite Hd, Hp in *.
  destruct read_doc_ok as (_ & Q & _).
  set (s := RS (nodes_bytes fl w ++ post) 0 fl).
  destruct (Q w r e 0 [] (rf_new 0 (rs_size s)) (r_open s) [] post fl M Hok (rready_open s) eq_refl R1) as (st' & E' & (S' & _));
    [rewrite len_nil; lia|].
  exists st'. split; [exact E'|]. rewrite S'. cbn [app]. reflexivity.
Qed.

Lemma seen_full : (forall n, node_full n -> node_seen n = n) /\ (forall l, nodes_full l -> nodes_seen l = l) /\
  (forall l, elems_full l -> elems_seen l = l).
Proof.
  apply doc_mind; cbn [node_full nodes_full elems_full node_seen nodes_seen elems_seen]; try reflexivity.
  - intros key [|n b] IH H; [contradiction|]. rewrite IH by exact H. reflexivity.
  - intros key ix e IH H. rewrite IH by exact H. reflexivity.
  - intros n IHn l IHl (H1 & H2). rewrite IHn, IHl by assumption. reflexivity.
  - intros b IHb l IHl (H1 & H2). rewrite IHb, IHl by assumption. reflexivity.
Qed.

Lemma t_doc_full init lim fl w :
  nodes_ok w -> nodes_full w -> room init lim (len (nodes_bytes fl w)) ->
  exists s0 st, fresh init lim fl = Done s0 /\ write_nodes 0 w (w_open s0) = Done (true, st) /\
    forall e r post, nodes_mirror w r -> read_room e (ws_pos (w_stream st)) (ws_pos (w_stream st) + len post) ->
      exists st', read_nodes e 0 r (r_open (RS (ws_data (w_stream st) ++ post) 0 fl)) = Done (true, w, st') /\
        r_stream st' = RS (ws_data (w_stream st) ++ post) (ws_pos (w_stream st)) fl.
Proof.
  intros Hok Hf Hr. destruct (t_doc init lim fl w Hok Hr) as (s0 & st & A & B & _ & C).
  exists s0, st. split; [exact A|]. split; [exact B|]. destruct seen_full as (_ & S & _). rewrite (S w Hf) in C. exact C.
Qed.

Lemma block_length_large fl vt key payload post : 0x40 <= vt -> vt < 256 ->
  len (large_block fl vt key payload) < two64 ->
  block_length fl (large_block fl vt key payload ++ post) = Some (len (large_block fl vt key payload)).
Proof.
  intros Hv Hb Hs. rewrite len_lblock in *. unfold large_block. cbn [app block_length]. rewrite b2n_n2b_small by exact Hb.
  destruct (N.ltb_spec vt 0x40) as [X|_]; [lia|]. rewrite <- app_assoc.
  match goal with |- context [num W64 fl ?n ++ ?r] => set (m := n); set (rr := r) end.
  assert (Hl : len (num W64 fl m ++ rr) = 8 + len rr) by (rewrite len_app, len_num; reflexivity).
  rewrite Hl. destruct (N.ltb_spec (8 + len rr) 8) as [X|_]; [lia|].
  rewrite take_app_exact by (rewrite len_num; reflexivity).
  rewrite of_num by (unfold m; lia). f_equal. unfold m. lia.
Qed.

Lemma block_length_node fl n post : node_ok n -> len (node_bytes fl n) < two64 ->
  block_length fl (node_bytes fl n ++ post) = Some (len (node_bytes fl n)).
Proof.
  intros Hok Hs. destruct n; cbn [node_bytes] in *; try (apply block_length_large; [lia|lia|exact Hs]).
  destruct Hok as (Hv & Hk). apply block_length_encode; assumption.
Qed.

Lemma skip_nodes fl w : forall post, nodes_ok w -> len (nodes_bytes fl w) < two64 ->
  skip_blocks fl (nodes_count w) (nodes_bytes fl w ++ post) = Some post.
Proof.
  induction w as [|n w IH]; intros post Hok Hs; [reflexivity|]. destruct Hok as (H1 & H2).
  cbn [nodes_count skip_blocks nodes_bytes] in *. rewrite len_app in Hs. rewrite <- app_assoc.
  rewrite block_length_node by (try assumption; lia). rewrite drop_app_exact by reflexivity. apply IH; [exact H2|lia].
Qed.

Lemma t_skip_doc init lim fl w s0 st post :
  nodes_ok w -> room init lim (len (nodes_bytes fl w)) ->
  fresh init lim fl = Done s0 -> write_nodes 0 w (w_open s0) = Done (true, st) ->
  skip_blocks fl (nodes_count w) (ws_data (w_stream st) ++ post) = Some post.
Proof.
  intros Hok Hr E0 E. destruct (t_write_doc init lim fl w Hok Hr) as (s0' & st' & E0' & E' & Hd & _).
  rewrite E0 in E0'. injection E0' as <-. rewrite E in E'. injection E' as <-. rewrite Hd.
  apply skip_nodes; [exact Hok|]. eapply room_two64. exact Hr.
Qed.
