(** * Properties_WriterEnd: C45, calls on a writer never damage what was written before. *)
From Verif Require Import Base Bytes Values Streams Types Format EntityWriter EntityReader Items Sections Protocol SectionEndSpec
  WriterEndSpec WriterEndProofs Properties_Sections Properties_Entity.
Open Scope N_scope.

(** Whatever calls were made on a writer and on the section writers it returned, in whatever order, with whatever
    results: the stream position is the end of the stream; a call that writes or begins something leaves every byte in
    place and only appends; a call that ends something changes nothing or replaces exactly eight bytes by the number of
    bytes behind them. *)
Theorem C45_calls : forall init lim fl s0 hist st c r st',
  fresh init lim fl = Done s0 -> lim < two64 -> whist s0 hist st -> all_sane hist -> sane c -> wstep c st = Done (r, st') ->
  ws_pos (w_stream st') = len (bytes_of st') /\
  (is_end c = false -> exists new, bytes_of st' = bytes_of st ++ new) /\
  (is_end c = true -> bytes_of st' = bytes_of st \/
     exists p, p + 8 <= len (bytes_of st) /\ bytes_of st' = sized fl p (bytes_of st)).
Proof. exact t_calls. Qed.
Print Assumptions C45_calls.

(** Ending needs no memory: no end call can fail with an exception, however little memory there is. *)
Theorem C45_end_needs_no_memory : forall init lim fl s0 hist st c,
  fresh init lim fl = Done s0 -> lim < two64 -> whist s0 hist st -> all_sane hist -> sane c -> is_end c = true -> wstep c st <> Throw.
Proof. exact t_end_total. Qed.
Print Assumptions C45_end_needs_no_memory.

(** A section that is still open can be ended, whatever was called in between: that succeeds, and the eight bytes behind
    the type byte of the section then are the number of bytes behind them; nothing else changes. *)
Theorem C45_section : forall init lim fl s0 hist st h key c st1 more st2,
  fresh init lim fl = Done s0 -> lim < two64 -> whist s0 hist st -> all_sane hist -> w_begin h key st = Done (Some c, st1) ->
  wcont st1 more st2 -> all_sane more -> wlive c st2 ->
  exists st3, w_end h (Some c) st2 = Done (true, st3) /\
    bytes_of st3 = sized fl (len (bytes_of st) + 1) (bytes_of st2) /\ len (bytes_of st) + 10 <= len (bytes_of st2) /\
    ws_pos (w_stream st3) = len (bytes_of st3) /\ ~ wlive c st3.
Proof. exact t_w_section. Qed.
Print Assumptions C45_section.

(** The same for an array of sections, when it is complete; otherwise the call is refused and changes nothing. *)
Theorem C45_array : forall init lim fl s0 hist st h key size ix c st1 more st2,
  fresh init lim fl = Done s0 -> lim < two64 -> whist s0 hist st -> all_sane hist -> w_begin_arr h key size ix st = Done (Some c, st1) ->
  wcont st1 more st2 -> all_sane more -> wlive c st2 ->
  w_end_arr h (Some c) st2 = Done (false, st2) \/
  exists st3, w_end_arr h (Some c) st2 = Done (true, st3) /\
    bytes_of st3 = sized fl (len (bytes_of st) + 1) (bytes_of st2) /\ len (bytes_of st) + 10 <= len (bytes_of st2) /\
    ws_pos (w_stream st3) = len (bytes_of st3) /\ ~ wlive c st3.
Proof. exact t_w_array. Qed.
Print Assumptions C45_array.

(** An element of an array: ending it succeeds and sets its size. *)
Theorem C45_element : forall init lim fl s0 hist st h arr i st1 more st2,
  fresh init lim fl = Done s0 -> lim < two64 -> whist s0 hist st -> all_sane hist -> w_begin_in h (Some arr) i st = Done (true, st1) -> i < ones ->
  wcont st1 more st2 -> all_sane more -> no_begin_in_w h more -> wlive arr st2 ->
  exists st3, w_end_in h (Some arr) i st2 = Done (true, st3) /\
    bytes_of st3 = sized fl (len (bytes_of st)) (bytes_of st2) /\ len (bytes_of st) + 8 <= len (bytes_of st2) /\
    ws_pos (w_stream st3) = len (bytes_of st3) /\ w_chain st3 = w_chain st2.
Proof. exact t_w_element. Qed.
Print Assumptions C45_element.

(** A section that was ended is final: no later call changes a byte of it, unless an element of an array around it was
    begun inside it. *)
Theorem C45_section_final : forall init lim fl s0 hist st h key c st1 more st2 st3 later st4,
  fresh init lim fl = Done s0 -> lim < two64 -> whist s0 hist st -> all_sane hist -> w_begin h key st = Done (Some c, st1) ->
  wcont st1 more st2 -> all_sane more -> no_element_of (fun x => wlive x st) more -> wlive c st2 ->
  w_end h (Some c) st2 = Done (true, st3) -> wcont st3 later st4 -> all_sane later ->
  same_between (len (bytes_of st)) (len (bytes_of st3)) (bytes_of st3) (bytes_of st4).
Proof. exact t_w_section_final. Qed.
Print Assumptions C45_section_final.

(** So is an array of sections with all its elements. *)
Theorem C45_array_final : forall init lim fl s0 hist st h key size ix c st1 more st2 st3 later st4,
  fresh init lim fl = Done s0 -> lim < two64 -> whist s0 hist st -> all_sane hist -> w_begin_arr h key size ix st = Done (Some c, st1) ->
  wcont st1 more st2 -> all_sane more -> no_element_of (fun x => wlive x st /\ x <> h) more -> wlive c st2 ->
  w_end_arr h (Some c) st2 = Done (true, st3) -> wcont st3 later st4 -> all_sane later ->
  same_between (len (bytes_of st)) (len (bytes_of st3)) (bytes_of st3) (bytes_of st4).
Proof. exact t_w_array_final. Qed.
Print Assumptions C45_array_final.

(** ** Finding: (size_t)-1 is taken for the number of an element before any element was begun *)
Definition w0 : wstream := match fresh 64 1000 false with Done s => s | _ => stream0 end.
Definition num_write (h : N) : wcall := WWrite h (TUInt I32) k_ab (CV (VP [x01; x00; x00; x00])).
(** A number was written and nothing begun: EndWriteSectionInArray(nullptr, -1) destroys its header. *)
Theorem C45_end_without_begin_refuted : exists st st',
  wrun [num_write 0] (w_open w0) = Done ([WBool true], st) /\
  wstep (WEndIn 0 None ones) st = Done (WBool true, st') /\
  take 8 (bytes_of st) <> take 8 (bytes_of st') /\ len (bytes_of st) = len (bytes_of st').
Proof. eexists _, _. split; [vm_compute; reflexivity|]. split; [vm_compute; reflexivity|]. split; [vm_compute; discriminate|vm_compute; reflexivity]. Qed.
Print Assumptions C45_end_without_begin_refuted.
(** Inside an array whose first element was not yet begun, it is the first bytes of the stream that are destroyed. *)
Theorem C45_end_before_first_element_refuted : exists st st',
  wrun [num_write 0; WBeginArr 0 k_ab 1 None] (w_open w0) = Done ([WBool true; WHandle (Some 1)], st) /\
  wstep (WEndIn 0 (Some 1) ones) st = Done (WBool true, st') /\ take 8 (bytes_of st) <> take 8 (bytes_of st').
Proof. eexists _, _. split; [vm_compute; reflexivity|]. split; [vm_compute; reflexivity|]. vm_compute; discriminate. Qed.
Print Assumptions C45_end_before_first_element_refuted.
(** On a new writer the call leaves eight bytes in the stream and the position before them. *)
Theorem C45_position_refuted : exists st',
  wstep (WEndIn 0 None ones) (w_open w0) = Done (WBool false, st') /\ len (bytes_of st') = 8 /\ ws_pos (w_stream st') = 0.
Proof. eexists. split; [vm_compute; reflexivity|]. split; vm_compute; reflexivity. Qed.
Print Assumptions C45_position_refuted.

(** ** The hypotheses are met *)
(** A section with a number in it, then another number, then the end of nothing. *)
Example section_final45 : exists st1 more st2 st3 later st4,
  fresh 64 1000 false = Done w0 /\ whist w0 [] (w_open w0) /\ w_begin 0 k_ab (w_open w0) = Done (Some 1, st1) /\
  wcont st1 more st2 /\ all_sane more /\ more <> [] /\ no_element_of (fun x => wlive x (w_open w0)) more /\ wlive 1 st2 /\
  w_end 0 (Some 1) st2 = Done (true, st3) /\ wcont st3 later st4 /\ all_sane later /\ later <> [] /\
  bytes_of st3 <> bytes_of st2 /\ bytes_of st4 <> bytes_of st3.
Proof.
  eexists _, [_], _, _, [_], _. split; [vm_compute; reflexivity|]. split; [apply whist_nil|]. split; [vm_compute; reflexivity|].
  split; [eapply (wcont_call _ (num_write 1)); [vm_compute; reflexivity|apply wcont_nil]|].
  split; [repeat constructor|]. split; [discriminate|]. split; [repeat constructor|]. split; [vm_compute; auto|].
  split; [vm_compute; reflexivity|]. split; [eapply (wcont_call _ (num_write 0)); [vm_compute; reflexivity|apply wcont_nil]|].
  split; [repeat constructor|]. split; [discriminate|]. split; vm_compute; discriminate.
Qed.
(** An array of one section with a number in it. *)
Example array_final45 : exists st1 more st2 st3 later st4,
  w_begin_arr 0 k_ab 1 None (w_open w0) = Done (Some 1, st1) /\
  wcont st1 more st2 /\ all_sane more /\ no_element_of (fun x => wlive x (w_open w0) /\ x <> 0) more /\ wlive 1 st2 /\
  w_end_arr 0 (Some 1) st2 = Done (true, st3) /\ wcont st3 later st4 /\ all_sane later /\
  bytes_of st3 <> bytes_of st2 /\ bytes_of st4 <> bytes_of st3.
Proof.
  eexists _, [_; _; _], _, _, [_], _. split; [vm_compute; reflexivity|].
  split; [eapply (wcont_call _ (WBeginIn 0 (Some 1) 0)); [vm_compute; reflexivity|];
          eapply (wcont_call _ (num_write 1)); [vm_compute; reflexivity|];
          eapply (wcont_call _ (WEndIn 0 (Some 1) 0)); [vm_compute; reflexivity|apply wcont_nil]|].
  split; [repeat constructor; discriminate|]. split; [constructor; [intros (_ & X); apply X; reflexivity|repeat constructor]|].
  split; [vm_compute; auto|]. split; [vm_compute; reflexivity|].
  split; [eapply (wcont_call _ (num_write 0)); [vm_compute; reflexivity|apply wcont_nil]|].
  split; [repeat constructor|]. split; vm_compute; discriminate.
Qed.
(** An element that is open: between its start and its end a number was written. *)
Example element45 : exists hist st st1 more st2,
  whist w0 hist st /\ all_sane hist /\ w_begin_in 0 (Some 1) 0 st = Done (true, st1) /\ 0 < ones /\
  wcont st1 more st2 /\ more <> [] /\ all_sane more /\ no_begin_in_w 0 more /\ wlive 1 st2.
Proof.
  eexists ([] ++ [_]), _, _, [_], _.
  split; [eapply (whist_call _ _ _ (WBeginArr 0 k_ab 1 None)); [apply whist_nil|reflexivity|vm_compute; reflexivity]|].
  split; [repeat constructor|]. split; [vm_compute; reflexivity|]. split; [reflexivity|].
  split; [eapply (wcont_call _ (num_write 1)); [vm_compute; reflexivity|apply wcont_nil]|].
  split; [discriminate|]. split; [repeat constructor|]. split; [repeat constructor|]. vm_compute; auto.
Qed.
(** The exact bytes of a section ended after a number. *)
Example bytes45 : exists st, wrun [WBegin 0 k_ab; num_write 1; WEnd 0 (Some 1)] (w_open w0) = Done ([WHandle (Some 1); WBool true; WBool true], st) /\
  bytes_of st = large_block false 0xd0 k_ab (encode false (TUInt I32) k_ab (CV (VP [x01; x00; x00; x00]))).
Proof. eexists. split; vm_compute; reflexivity. Qed.
