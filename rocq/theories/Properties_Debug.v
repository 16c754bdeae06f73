(** * C50: the debug build and the release build agree. [wstep]/[rstep]/[er_read]/[g_validate] are the
    release build (empty check macros), [d_wstep]/... the debug build (a check that fails throws);
    [wlegal], [rlegal], [dest_fits], [trips], [cut_short], [run] are defined in DebugSpec.v. *)
From Verif Require Import Base Bytes BytesFacts Values FileSpec Streams Types Format Accept EntityWriter EntityReader Items ItemSpec
  Sections Documents DocSpec Protocol Damage Keys KeySpec KeyFacts StdSet Validator Graph GraphSpec Debug DebugSpec
  DebugFacts DebugRunFacts DebugGraphFacts Properties_Entity Properties_Sections Properties_Graph.
Open Scope N_scope.

(** Writing: any program whose keys have at most 40 characters has the same results, the same final state
    and the same exceptions in both builds; no check ever fails, whatever the state of the writer, the
    stream and the memory. *)
Theorem C50_write_programs : forall l st, Forall wlegal l -> run d_wstep l st = run wstep l st.
Proof. intros l st H. exact (run_write l H st). Qed.
Print Assumptions C50_write_programs.

(** With a key of 41 to 255 characters every writing call (on an object that has no open section)
    throws. *)
Theorem C50_write_long_key : forall c st key h, wkey c = Some key -> 40 < len key -> len key < 256 ->
  (match c with WWrite h' _ _ _ | WBegin h' _ | WBeginArr h' _ _ _ => h' = h | _ => False end) ->
  (exists a f, w_chain st = a ++ [f] /\ wf_id f = h /\ ~ In h (map wf_id a)) -> d_wstep c st = Throw.
Proof. exact d_wstep_long. Qed.
Print Assumptions C50_write_long_key.

(** Reading any bytes: a call of the debug build throws if it meets an indexed array block that is cut
    short, and in every other case it does exactly what the release build does. *)
Theorem C50_read : forall e c st, rlegal c -> dest_fits c ->
  rs_pos (r_stream st) <= len (rs_data (r_stream st)) -> len (rs_data (r_stream st)) < 2^62 ->
  (trips c st -> d_rstep e c st = Throw) /\ (~ trips c st -> d_rstep e c st = rstep e c st).
Proof.
  intros e c st Hl Hf Hp Hd. split; [apply d_rstep_trips; assumption|]. intros N.
  destruct (d_rstep_or e c st Hl Hf Hp Hd) as [E|T]; [exact E|contradiction].
Qed.
Print Assumptions C50_read.

(** The same for reading programs: they differ only if the release build comes to a block that is cut
    short, and then the debug build has thrown, there or before. *)
Theorem C50_read_programs : forall e l st, e_lim e < 2^60 -> Forall rlegal l -> Forall dest_fits l ->
  rs_pos (r_stream st) <= len (rs_data (r_stream st)) -> len (rs_data (r_stream st)) < 2^62 ->
  let reaches_cut := exists a c b rs st1, l = a ++ c :: b /\ run (rstep e) a st = Done (rs, st1) /\ trips c st1 in
  (reaches_cut -> run (d_rstep e) l st = Throw) /\ (~ reaches_cut -> run (d_rstep e) l st = run (rstep e) l st).
Proof.
  intros e l st He Hl Hf Hp Hd. split.
  - intros (a & c & b & rs & st1 & -> & R & T). exact (run_read_trips e c b He a Hl Hf st rs st1 Hp Hd R T).
  - intros N. apply run_read_same; try assumption. intros a c b rs st1 E R T. apply N. exists a, c, b, rs, st1. auto.
Qed.
Print Assumptions C50_read_programs.

(** A value that the release build reads successfully, the debug build reads too, with the same result. *)
Theorem C50_read_success : forall e t key dest data pos fl v s',
  pos <= len data -> len data < 2^62 -> e_lim e < 2^60 -> 0 < len key -> len key <= 40 -> cval_ok t dest ->
  er_read e t key dest (RS data pos fl) = Done (true, v, s') -> d_er_read e t key dest (RS data pos fl) = Done (true, v, s').
Proof. exact read_success_same. Qed.
Print Assumptions C50_read_success.

(** Arrays of sections in the documented layout, wherever they stand and whatever follows, never fail a
    check. *)
Theorem C50_read_arrays : forall e st h key nok ix n pre rest fl,
  r_stream st = RS (pre ++ node_bytes fl n ++ rest) (len pre) fl -> len (pre ++ node_bytes fl n ++ rest) < 2^62 ->
  match n with NArray k _ _ | NNullArray k => k = key | _ => False end -> 0 < len key -> len key <= 40 ->
  d_rstep e (RBeginArr h key nok ix) st = rstep e (RBeginArr h key nok ix) st.
Proof.
  intros e st h key nok ix n pre rest fl Es Hs Hn H0 Hk. rewrite len_app in Hs.
  destruct (d_rstep_or e (RBeginArr h key nok ix) st) as [E|T]; [split; assumption|exact Logic.I| | |exact E|exfalso].
  1, 2: rewrite Es; cbn [rs_pos rs_data]; rewrite len_app; lia.
  unfold trips in T. rewrite Es in T. cbn [rs_pos rs_data rs_flip] in T. rewrite drop_len_app in T. destruct ix; [|exact T]. destruct T as (_ & T).
  revert T. apply array_node_fine; assumption || lia.
Qed.
Print Assumptions C50_read_arrays.

(** On any bytes and with any key of 1 to 255 characters, reading a value in the debug build has undefined
    behaviour at most for the item counts of C13; in particular not with a key that is too long. *)
Theorem C50_read_safe : forall e t key dest data pos fl,
  pos <= len data -> len data < 2^62 -> e_lim e < 2^60 -> 0 < len key -> len key < 256 -> cval_ok t dest ->
  d_er_read e t key dest (RS data pos fl) = Undef ->
  len key <= 40 /\ (is_array dest /\ multi_component t) /\ count_damage fl t key (drop pos data).
Proof. exact debug_reader_safe. Qed.
Print Assumptions C50_read_safe.

(** The checks in the validation of graphs never fail, for every node type, graph, flags and budget. *)
Theorem C50_graph : forall t Hi Hs, is_node t = true -> forall n f (g : graph (key t)), is_graph (key_ops t Hi Hs) g ->
  d_g_validate (key_ops t Hi Hs) n f g = option_map Done (g_validate (key_ops t Hi Hs) n f g).
Proof.
  intros t Hi Hs H n f g G. assert (K : is_key t = true) by (destruct t; auto).
  exact (d_g_validate_eq _ (t_key_laws t Hi Hs K) (t_key_bounds t Hi Hs H) n f g G).
Qed.
Print Assumptions C50_graph.

(** The check in the reading of tables (ISD/ISD_EntityTable.h:214) never fails: a successful
    BeginReadSectionsArray that does not accept an absent array gives a reader. *)
Theorem C50_table : forall e h key ix st c size ix' st',
  r_begin_arr e h key false ix st = Done (c, size, true, ix', st') -> c <> None.
Proof. exact begin_arr_handle. Qed.
Print Assumptions C50_table.

(** ** Findings *)

(** The length of a key is taken modulo 256 before it is checked: a key of 258 characters is accepted and
    written as its first two. *)
Definition key258 : list byte := k_ab ++ repeat x7a 256.
Theorem C50_wrapped_key_refuted : exists st,
  len key258 = 258 /\ d_wstep (WWrite 0 (TUInt I8) key258 (CV (VP [x05]))) (w_open stream0) = Done (WBool true, st) /\
  ws_data (w_stream st) = encode false (TUInt I8) k_ab (CV (VP [x05])).
Proof. eexists. split; [vm_compute; reflexivity|]. split; vm_compute; reflexivity. Qed.
Print Assumptions C50_wrapped_key_refuted.

(** With an empty key the builds differ on damaged data: an optional number whose block ends after the
    type byte is a failed read in the release build and an exception in the debug build. *)
Theorem C50_empty_key_refuted : exists v s',
  er_read env0 (TUInt I32) [] (COpt None) (RS [n2b (vt_single (TUInt I32))] 0 false) = Done (false, v, s') /\
  d_er_read env0 (TUInt I32) [] (COpt None) (RS [n2b (vt_single (TUInt I32))] 0 false) = Throw.
Proof. eexists _, _. split; vm_compute; reflexivity. Qed.
Print Assumptions C50_empty_key_refuted.

(** Opening an array of sections does not compare its size with what was read, so an indexed array block
    that is cut short is opened by the release build and an exception in the debug build. *)
Definition short_array : list byte :=
  n2b 0xd1 :: num W64 false 5 ++ n2b 2 :: k_ab ++ num W16 false 256 ++ num W64 false 0 ++ num W64 false 0.
Theorem C50_short_array_refuted : exists st,
  rstep env0 (RBeginArr 0 k_ab false (Some [])) (r_open (RS short_array 0 false)) = Done (RHandle (Some 1) 0 true, st) /\
  d_rstep env0 (RBeginArr 0 k_ab false (Some [])) (r_open (RS short_array 0 false)) = Throw.
Proof. eexists. split; vm_compute; reflexivity. Qed.
Print Assumptions C50_short_array_refuted.

(** ** The hypotheses are met *)
Example C50_legal : Forall wlegal [WBegin 0 k_ab; WWrite 1 (TUInt I8) k_ab (CV (VP [x05])); WEnd 0 (Some 1)] /\
  exists st, run d_wstep [WBegin 0 k_ab; WWrite 1 (TUInt I8) k_ab (CV (VP [x05])); WEnd 0 (Some 1)] (w_open stream0)
  = Done ([WHandle (Some 1); WBool true; WBool true], st).
Proof. split; [repeat constructor; vm_compute; discriminate|]. eexists. vm_compute. reflexivity. Qed.
(** 41 characters: an exception; the release build writes. *)
Example C50_key41 : exists st, d_wstep (WWrite 0 (TUInt I8) (repeat x7a 41) (CV (VP [x05]))) (w_open stream0) = Throw /\
  wstep (WWrite 0 (TUInt I8) (repeat x7a 41) (CV (VP [x05]))) (w_open stream0) = Done (WBool true, st).
Proof. eexists. split; vm_compute; reflexivity. Qed.
Example C50_key40 : exists st, d_wstep (WWrite 0 (TUInt I8) (repeat x7a 40) (CV (VP [x05]))) (w_open stream0) = Done (WBool true, st).
Proof. eexists. vm_compute. reflexivity. Qed.
(** The short array trips, and is reached by a program. *)
Example C50_trips : trips (RBeginArr 0 k_ab false (Some [])) (r_open (RS short_array 0 false)).
Proof.
  unfold trips. split; [eexists [], _; cbn; split; [reflexivity|split; [reflexivity|intros []]]|]. cbn [r_stream r_open rs_flip rs_pos rs_data].
  exists 5, (num W16 false 256 ++ num W64 false 0 ++ num W64 false 0).
  split; [reflexivity|]. split; [reflexivity|]. split.
  - left. exists 256, (num W64 false 0 ++ num W64 false 0). repeat split; reflexivity.
  - cbn zeta. split; [reflexivity|]. split; [discriminate|reflexivity].
Qed.
(** An array of sections with two sections and an index, in both builds. *)
Example C50_array_ok : exists st,
  d_rstep env0 (RBeginArr 0 k_ab false (Some [])) (r_open (RS (node_bytes true (NArray k_ab (Some [0; 1]) (SCons Nil SNil))) 0 true))
  = Done (RHandle (Some 1) 1 true, st).
Proof. eexists. vm_compute. reflexivity. Qed.
