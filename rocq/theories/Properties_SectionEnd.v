(** * C43: a section that was not read exactly to its end cannot be closed.
    Statements only. [rhist] (Protocol.v) is any history of calls on a reader and the readers it
    returned, on any stream, intact or not; [rcont] (SectionEndSpec.v) any further calls. *)
From Verif Require Import Base Bytes Values Streams Types Format EntityWriter EntityReader Sections Protocol
  SectionEndSpec SectionEndFacts Properties_Entity Properties_Sections.
Open Scope N_scope.

(** The section [c], opened at a position where its header states [size] bytes behind the header's nine
    (type and size): whatever was called in between, as long as the section is open EndReadSection
    refuses, without any change, unless the stream stands exactly behind those bytes; and then it
    closes the section. (Positions are 64-bit numbers, hence the mod.) *)
Theorem C43_section : forall e s hist st h key nok c ok st1 more st2 pre rest fl,
  rhist e s hist st -> r_stream st = RS (pre ++ rest) (len pre) fl -> len (pre ++ rest) < 2 ^ 62 ->
  0 < len key -> len key <= 40 -> r_begin e h key nok st = Done (Some c, ok, st1) ->
  rcont e st1 more st2 -> rlive c st2 ->
  exists size, size < two64 /\ take 9 rest = n2b 0xd0 :: num W64 fl size /\
    closes_only_at ((len pre + 9 + size) mod two64) c (r_end h (Some c) st2) st2.
Proof. exact t_end_section. Qed.
Print Assumptions C43_section.

(** The same for an array of sections, with either end call. *)
Theorem C43_array : forall e s hist st h key nok ix c cnt ok ix' st1 more st2 pre rest fl,
  rhist e s hist st -> r_stream st = RS (pre ++ rest) (len pre) fl -> len (pre ++ rest) < 2 ^ 62 ->
  0 < len key -> len key <= 40 -> r_begin_arr e h key nok ix st = Done (Some c, cnt, ok, ix', st1) ->
  rcont e st1 more st2 -> rlive c st2 ->
  exists size, size < two64 /\ take 9 rest = n2b 0xd1 :: num W64 fl size /\
    closes_only_at ((len pre + 9 + size) mod two64) c (r_end h (Some c) st2) st2 /\
    (rs_pos (r_stream st2) <> (len pre + 9 + size) mod two64 -> r_end_arr h (Some c) st2 = Done (false, st2)) /\
    (forall st3, r_end_arr h (Some c) st2 = Done (true, st3) -> r_stream st3 = r_stream st2 /\ ~ rlive c st3).
Proof. exact t_end_array. Qed.
Print Assumptions C43_array.

(** An element of an array: EndReadSectionInArray says true exactly for the array, the number begun last
    and the position behind the element's bytes; it never changes anything. *)
Theorem C43_element : forall e s hist st h arr i opt has st1 more st2 pre rest fl,
  rhist e s hist st -> r_stream st = RS (pre ++ rest) (len pre) fl -> len (pre ++ rest) < 2 ^ 62 -> 8 <= len rest ->
  r_begin_in h (Some arr) i opt st = Done (true, has, st1) ->
  rcont e st1 more st2 -> no_begin_in h more -> rlive arr st2 ->
  exists size, size < two64 /\ take 8 rest = num W64 fl size /\ (opt = true -> has = negb (size =? 0)) /\
    forall arg j, r_end_in h arg j st2 =
      Done (hdl_eqb (Some arr) arg && (j =? i) && (rs_pos (r_stream st2) =? (len pre + 8 + size) mod two64), st2).
Proof. exact t_end_element. Qed.
Print Assumptions C43_element.

(** Finding: the end position is computed modulo 2^64 and only compared with the size of the stream, so a
    section whose size field leads back before its own start is opened. *)
Definition backwards : list byte := n2b 0xd0 :: num W64 false (two64 - 8) ++ n2b 2 :: k_ab.
Theorem C43_end_before_start_refuted : exists st1,
  r_begin env0 0 k_ab false (r_open (RS backwards 0 false)) = Done (Some 1, true, st1) /\
  rs_pos (r_stream st1) = 12 /\ (9 + (two64 - 8)) mod two64 = 1.
Proof. eexists. split; [vm_compute; reflexivity|]. split; vm_compute; reflexivity. Qed.
Print Assumptions C43_end_before_start_refuted.

(** ** The hypotheses are met: a section with two numbers, closed too early and closed in time. *)
Definition two_numbers : list byte :=
  large_block false 0xd0 k_ab (encode false (TUInt I32) k_ab (CV (VP [x01; x00; x00; x00])) ++
                               encode false (TUInt I32) k_ab (CV (VP [x02; x00; x00; x00]))).
Definition num_read : rcall := RRead 1 (TUInt I32) k_ab (CV (VP [x00; x00; x00; x00])).
Example too_early : exists st, rrun env0 [RBegin 0 k_ab false; num_read; REnd 0 (Some 1)] (r_open (RS two_numbers 0 false))
  = Done ([RHandle (Some 1) 0 true; RValue true (CV (VP [x01; x00; x00; x00])); RBool false], st).
Proof. eexists. vm_compute. reflexivity. Qed.
Example in_time : exists st, rrun env0 [RBegin 0 k_ab false; num_read; REnd 0 (Some 1); num_read; REnd 0 (Some 1)] (r_open (RS two_numbers 0 false))
  = Done ([RHandle (Some 1) 0 true; RValue true (CV (VP [x01; x00; x00; x00])); RBool false;
           RValue true (CV (VP [x02; x00; x00; x00])); RBool true], st).
Proof. eexists. vm_compute. reflexivity. Qed.
Example hypotheses43 : exists st1 more st2,
  rhist env0 (RS two_numbers 0 false) [] (r_open (RS two_numbers 0 false)) /\
  r_begin env0 0 k_ab false (r_open (RS two_numbers 0 false)) = Done (Some 1, true, st1) /\
  rcont env0 st1 more st2 /\ more <> [] /\ rlive 1 st2 /\ rs_pos (r_stream st2) <> len two_numbers.
Proof.
  eexists _, [_], _. split; [apply rhist_nil|]. split; [vm_compute; reflexivity|].
  split; [eapply (rcont_call env0 _ num_read); [vm_compute; reflexivity|apply rcont_nil]|].
  split; [discriminate|]. split; [vm_compute; auto|]. vm_compute. discriminate.
Qed.
