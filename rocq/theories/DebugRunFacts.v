(** * Programs in the debug build. *)
From Verif Require Import Base Bytes BytesFacts Values Streams FileSpec ReadSpec StreamFacts StreamProps Types Format
  Accept EntityWriter EntityReader EntityWriterFacts EntityReaderFacts EntitySafety
  ArraySafety Sections SectionFacts Protocol ProtocolFacts Damage DamageFacts Items Documents DocSpec Debug DebugSpec DebugFacts.
Open Scope N_scope.

Lemma within_stream pre post fl s' : within pre post fl s' ->
  rs_data s' = pre ++ post /\ rs_pos s' <= len (pre ++ post).
Proof. intros (a & b & -> & ->). unfold rs_at. cbn [rs_data rs_pos]. rewrite !len_app, app_assoc. split; [reflexivity|lia]. Qed.

(** Reading calls keep the data and stay inside of it. *)
Lemma rstep_stream e c st r st' : rlegal c -> dest_fits c -> rs_pos (r_stream st) <= len (rs_data (r_stream st)) ->
  len (rs_data (r_stream st)) < 2^62 -> e_lim e < 2^60 -> rstep e c st = Done (r, st') ->
  rs_data (r_stream st') = rs_data (r_stream st) /\ rs_pos (r_stream st') <= len (rs_data (r_stream st)).
Proof.
  intros Hl Hf Hp Hd He E. destruct (rs_split _ Hp) as (pre & post & Es & Hpre & Epost & Hlen).
  assert (Hs : small_rs pre post) by (unfold small_rs, lim62; lia).
  assert (Ed : rs_data (r_stream st) = pre ++ post) by (rewrite Es; reflexivity).
  assert (Hr : rs_data (r_stream st) = rs_data (r_stream st) /\ rs_pos (r_stream st) <= len (rs_data (r_stream st))) by auto.
  destruct c as [h t key dest|h key nok|h arg|h key nok ix|h arg i opt|h arg i|h arg]; cbn [rlegal rkey dest_fits] in *;
    cbn [rstep] in E; unfold as_rbool in E.
  - unfold r_read in E. destruct (split_at rf_id h (r_chain st)) as [x|]; [|discriminate].
    destruct (r_stream st) as [data pos fl]. cbn [rs_data rs_pos] in *.
    pose proof (t_reader_total e t key dest data pos fl Hp Hd He (proj1 Hl) (proj2 Hl) Hf) as T.
    destruct (er_read e t key dest (RS data pos fl)) as [[[ok v] s1]| |]; cbn [bind] in E; try discriminate.
    injection E as <- <-. destruct T as (_ & n & Hn & -> & _). cbn [r_stream rs_data rs_pos]. auto.
  - unfold r_begin in E. destruct (split_at rf_id h (r_chain st)) as [[[a f] b]|]; [|discriminate].
    destruct b; [|cbn [bind] in E; injection E as <- <-; exact Hr].
    pose proof (begin_read_gen e vt_subsection key pre post (rs_flip (r_stream st)) (proj2 Hl) (proj1 Hl) eq_refl Hs) as G.
    rewrite <- Es in G. destruct (begin_read e vt_subsection key (r_stream st)) as [[bend s1]| |]; cbn [wp bind] in *; try contradiction.
    destruct G as (Hw & _). apply within_stream in Hw. rewrite <- Ed in Hw.
    destruct (bend =? 0); [injection E as <- <-; exact Hw|]. destruct (bend =? rs_pos s1); injection E as <- <-; exact Hw.
  - unfold r_end in E. destruct (split_at rf_id h (r_chain st)) as [[[a f] b]|]; [|discriminate].
    repeat match type of E with context [if ?x then _ else _] => destruct x | context [match ?x with _ => _ end] => destruct x end;
    cbn [bind] in E; try discriminate; injection E as <- <-; exact Hr.
  - unfold r_begin_arr in E. destruct (split_at rf_id h (r_chain st)) as [[[a f] b]|]; [|discriminate].
    destruct b; [|cbn [bind] in E; injection E as <- <-; exact Hr].
    pose proof (begin_read_gen e vt_array_subsection key pre post (rs_flip (r_stream st)) (proj2 Hl) (proj1 Hl) eq_refl Hs) as G.
    rewrite <- Es in G. destruct (begin_read e vt_array_subsection key (r_stream st)) as [[bend s1]| |]; cbn [wp bind] in *; try contradiction.
    destruct G as (Hw & _). pose proof (within_stream _ _ _ _ Hw) as Hw'. rewrite <- Ed in Hw'.
    destruct (bend =? 0); [injection E as <- <-; exact Hw'|]. destruct (bend =? rs_pos s1); [injection E as <- <-; exact Hw'|].
    destruct Hw as (p & q & -> & ->).
    assert (Hs1 : small_rs (pre ++ p) q) by (unfold small_rs in *; rewrite !len_app in *; lia).
    pose proof (read_meta_gen e (rf_size f) bend ix (pre ++ p) q (rs_flip (r_stream st)) Hs1) as M.
    destruct (read_meta e (rf_size f) bend ix (rs_at (pre ++ p) q (rs_flip (r_stream st)))) as [[[[[ok per] count] ix1] s2]| |]; cbn [wp bind] in *; try discriminate.
    destruct M as (p2 & q2 & -> & M & _); [unfold lim62; lia|]. apply within_stream in M. rewrite <- app_assoc, <- Ed in M.
    destruct ok; cbn [negb] in E; injection E as <- <-; exact M.
  - unfold r_begin_in in E. destruct (split_at rf_id h (r_chain st)) as [[[a f] b]|]; [|discriminate].
    destruct (negb (hdl_eqb (head_id rf_id b) arg)); [cbn [bind] in E; injection E as <- <-; exact Hr|].
    destruct (negb (add64 (rf_index f) 1 =? i)); [cbn [bind] in E; injection E as <- <-; exact Hr|].
    destruct (rf_size f <=? i); [cbn [bind] in E; injection E as <- <-; exact Hr|].
    pose proof (rs_word_w W64 _ _ (rs_flip (r_stream st)) Hs) as G. rewrite <- Es in G. unfold rs_u64 in E.
    destruct (rs_word W64 (r_stream st)) as [[size s1]| |]; cbn [wp bind] in *; try contradiction.
    destruct G as (_ & p & q & -> & Hw & _). apply within_stream in Hw. rewrite <- Ed in Hw.
    destruct opt; [cbn [bind] in E; injection E as <- <-; exact Hw|]. destruct (size =? 0); cbn [bind] in E; injection E as <- <-; exact Hw.
  - unfold r_end_in in E. destruct (split_at rf_id h (r_chain st)) as [[[a f] b]|]; [|discriminate].
    destruct (_ || _); cbn [bind] in E; injection E as <- <-; exact Hr.
  - unfold r_end_arr in E. destruct (split_at rf_id h (r_chain st)) as [[[a f] b]|]; [|discriminate].
    repeat match type of E with context [if ?x then _ else _] => destruct x | context [match ?x with _ => _ end] => destruct x end;
    cbn [bind] in E; try discriminate; injection E as <- <-; exact Hr.
Qed.

Lemma run_write l : Forall wlegal l -> forall st, run d_wstep l st = run wstep l st.
Proof.
  induction 1 as [|c l Hc _ IH]; intros st; [reflexivity|]. cbn [run]. rewrite d_wstep_eq by exact Hc.
  destruct (wstep c st) as [[r st1]| |]; cbn [bind]; [|reflexivity|reflexivity]. rewrite IH. reflexivity.
Qed.

Lemma run_read_same e l : e_lim e < 2^60 -> Forall rlegal l -> Forall dest_fits l -> forall st,
  rs_pos (r_stream st) <= len (rs_data (r_stream st)) -> len (rs_data (r_stream st)) < 2^62 ->
  (forall a c b rs st1, l = a ++ c :: b -> run (rstep e) a st = Done (rs, st1) -> ~ trips c st1) ->
  run (d_rstep e) l st = run (rstep e) l st.
Proof.
  intros He Hl. induction Hl as [|c l Hc Hl IH]; intros Hf st Hp Hd N; [reflexivity|].
  pose proof (Forall_inv Hf) as Hf1. pose proof (Forall_inv_tail Hf) as Hf2. cbn [run].
  destruct (d_rstep_or e c st Hc Hf1 Hp Hd) as [->|T]; [|exfalso; exact (N [] c l [] st eq_refl eq_refl T)].
  destruct (rstep e c st) as [[r st1]| |] eqn:E; cbn [bind]; [|reflexivity|reflexivity].
  destruct (rstep_stream e c st r st1 Hc Hf1 Hp Hd He E) as (Ed & Hp1).
  rewrite IH; [reflexivity|exact Hf2|rewrite Ed; exact Hp1|rewrite Ed; exact Hd|].
  intros a c' b rs st2 -> R. apply (N (c :: a) c' b (r :: rs) st2 eq_refl). cbn [run]. rewrite E. cbn [bind]. rewrite R. reflexivity.
Qed.
Lemma run_read_trips e c b : e_lim e < 2^60 -> forall a, Forall rlegal (a ++ c :: b) -> Forall dest_fits (a ++ c :: b) -> forall st rs st1,
  rs_pos (r_stream st) <= len (rs_data (r_stream st)) -> len (rs_data (r_stream st)) < 2^62 ->
  run (rstep e) a st = Done (rs, st1) -> trips c st1 -> run (d_rstep e) (a ++ c :: b) st = Throw.
Proof.
  intros He. induction a as [|x a IH]; intros Hl Hf st rs st1 Hp Hd R T; cbn [app run] in *.
  - injection R as <- <-. rewrite d_rstep_trips; [reflexivity|exact (Forall_inv Hl)|assumption..].
  - pose proof (Forall_inv Hl) as Hl1. pose proof (Forall_inv Hf) as Hf1.
    destruct (d_rstep_or e x st Hl1 Hf1 Hp Hd) as [->|T1]; [|rewrite d_rstep_trips; [reflexivity|assumption..]].
    destruct (rstep e x st) as [[r st2]| |] eqn:E; cbn [bind] in *; try discriminate.
    destruct (rstep_stream e x st r st2 Hl1 Hf1 Hp Hd He E) as (Ed & Hp1).
    destruct (run (rstep e) a st2) as [[rs2 st3]| |] eqn:R2; cbn [bind] in R; try discriminate. injection R as <- <-.
    rewrite (IH (Forall_inv_tail Hl) (Forall_inv_tail Hf) st2 rs2 st3); [reflexivity|rewrite Ed; exact Hp1|rewrite Ed; exact Hd|exact R2|exact T].
Qed.

(** Array blocks as they are written do not trip. *)
Lemma array_node_fine fl pos total n key rest : match n with NArray k _ _ | NNullArray k => k = key | _ => False end ->
  len key <= 40 -> pos + len (node_bytes fl n ++ rest) < 2^62 ->
  ~ cut_short fl pos total vt_array_subsection key (node_bytes fl n ++ rest).
Proof.
  intros Hn Hk Hl H. destruct n as [i|k b|k|k ix el|k]; try contradiction; subst k; cbn [node_bytes] in *;
    apply large_block_cut in H; try assumption; try reflexivity; destruct H as (H1 & H2); [|apply H1; reflexivity].
  rewrite len_app, len_app, !len_num in H2. cbn [wbytes] in H2. lia.
Qed.
