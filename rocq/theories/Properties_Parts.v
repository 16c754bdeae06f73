(** * C49: streams that hold several objects, values and sections. *)
From Verif Require Import Base Bytes Values Streams Types EntityWriter EntityReader Items ItemSpec Sections Documents DocSpec
  Keys KeySpec Containers ValueEqSpec StdSet Graph Classes Table IndexedVector DynTypes Varying VaryingSpec EntityGen EntitySpec EntityFacts
  TruncSpec Format FileSpec Damage ReadAnySpec Parts PartsSpec PartsFacts PartsAnySpec PartsAny Properties_Keys Properties_Entity Properties_Table Properties_Generated Properties_Store.
Open Scope N_scope.

(** C49: any program that writes values, objects of any classes and sections and arrays of sections (nested to any depth) of
    these, one after another with one writer, succeeds; the bytes are those of the documented layout, one part after the other; and the program
    with the corresponding reads, whatever its objects held before and whatever follows in the stream, reads the same
    values and identical objects in the same order, and ends exactly behind them. *)
Theorem C49_roundtrip : forall U w init lim fl, parts_ok w -> room init lim (len (nodes_bytes fl (parts_doc w))) ->
  exists s0 st, fresh init lim fl = Done s0 /\ write_parts U 0 w (w_open s0) = Done (true, st) /\
    ws_data (w_stream st) = nodes_bytes fl (parts_doc w) /\
    forall e r post, parts_mirror w r -> read_room e (ws_pos (w_stream st)) (ws_pos (w_stream st) + len post) ->
      exists x st', read_parts U e 0 r (r_open (RS (ws_data (w_stream st) ++ post) 0 fl)) = Done (true, x, st') /\ parts_same w x /\
        r_stream st' = RS (ws_data (w_stream st) ++ post) (ws_pos (w_stream st)) fl.
Proof. exact t_parts_roundtrip. Qed.
Print Assumptions C49_roundtrip.

(** C49: if any number of bytes is missing at the end, the reading program fails; it does not stop early with
    success. (With keys that are not empty: see C37_empty_key_refuted.) *)
Theorem C49_cut : forall U w init lim fl, parts_ok w -> parts_keyed w -> room init lim (len (nodes_bytes fl (parts_doc w))) ->
  exists s0 st, fresh init lim fl = Done s0 /\ write_parts U 0 w (w_open s0) = Done (true, st) /\
    forall e r pre p, parts_mirror w r -> cut_off p (ws_data (w_stream st)) ->
      4 * ws_pos (w_stream st) <= e_lim e -> len pre + ws_pos (w_stream st) < 2^62 ->
      exists y st', read_parts U e 0 r (r_open (RS (pre ++ p) (len pre) fl)) = Done (false, y, st').
Proof. exact t_parts_cut. Qed.
Print Assumptions C49_cut.

(** C49: on a stream with any content, from any position on, the reading program returns true or false with values of the
    types and objects of the classes it asked for (all of them if it returns true, or sections and arrays that are absent), with the stream unchanged and the position
    inside; or it throws, because of a string, an array or an index it asks for and too little memory or damaged sizes in the
    stream; or it writes outside of an object, because of an array of vectors, matrices or quaternions it asks for and a
    block of that name with a wrong item count. *)
Theorem C49_any_bytes : forall U x e data pos flip, parts_reader x -> len data < 2^62 -> e_lim e < 2^60 -> pos <= len data ->
  match read_parts U e 0 x (r_open (RS data pos flip)) with
  | Done (ok, y, st) => parts_found ok x y /\ rs_data (r_stream st) = data /\ rs_flip (r_stream st) = flip /\ pos <= rs_pos (r_stream st) <= len data
  | Throw => refused (e_lim e) data flip pos (parts_ask x) \/ index_refused (e_lim e) data flip pos (parts_index x)
  | Undef => overrun data flip pos (parts_ask x)
  end.
Proof. exact t_parts_any. Qed.
Print Assumptions C49_any_bytes.

(** The hypotheses are met: a number, a section with a scene and an absent section, a section with nothing in it, an array of
    sections with an index whose second element holds an object and an absent array, and a second object; read into new objects. *)
Definition a_number : item := Item (TUInt I32) k_ab (CV (VP [x07; x00; x00; x00])).
Definition a_zero : item := Item (TUInt I32) k_ab (CV (VP [x00; x00; x00; x00])).
Definition one := Properties_Store.number [x01; x02; x03; x04].
Definition zero := Properties_Store.number [x00; x00; x00; x00].
Definition parts0 : parts :=
  PCons (PItem a_number)
  (PCons (PSection k_ab (PCons (PObj Scene scene0) (PCons (PNull k_ab) PNil)))
  (PCons (PSection k_ab PNil)
  (PCons (PArray k_ab (Some [1; 0]) (PECons PNil (PECons (PCons (PObj OneNumber one) (PCons (PNullArray k_ab) PNil)) PENil)))
  (PCons (PObj OneNumber one) PNil)))).
Definition reads0 : parts :=
  PCons (PItem a_zero)
  (PCons (PSection k_ab (PCons (PObj Scene (m_new (smf ulasts Scene))) (PCons (PSection k_ab PNil) PNil)))
  (PCons (PSection k_ab (PCons (PItem a_zero) PNil))
  (PCons (PArray k_ab (Some []) (PECons (PCons (PItem a_zero) PNil) (PECons (PCons (PObj OneNumber zero) (PCons (PArray k_ab None PENil) PNil)) PENil)))
  (PCons (PObj OneNumber zero) PNil)))).
Example C49_example : parts_ok parts0 /\ parts_keyed parts0 /\ parts_mirror parts0 reads0 /\
  room 64 100000 (len (nodes_bytes true (parts_doc parts0))) /\
  exists s0 st y st', fresh 64 100000 true = Done s0 /\ write_parts ulasts 0 parts0 (w_open s0) = Done (true, st) /\
    read_parts ulasts env0 0 reads0 (r_open (RS (ws_data (w_stream st)) 0 true)) = Done (true, y, st') /\
    y = PCons (PItem a_number)
     (PCons (PSection k_ab (PCons (PObj Scene scene0) (PCons (PNull k_ab) PNil)))
     (PCons (PNull k_ab)
     (PCons (PArray k_ab (Some [1; 0]) (PECons PNil (PECons (PCons (PObj OneNumber one) (PCons (PNullArray k_ab) PNil)) PENil)))
     (PCons (PObj OneNumber one) PNil)))).
Proof.
  destruct C32_example as (S1 & S2 & _).
  assert (K : len k_ab <= 40) by (vm_compute; discriminate).
  assert (O1 : s_sound OneNumber /\ s_ok OneNumber one /\ s_fits OneNumber one).
  { split; [repeat constructor; vm_compute; discriminate|]. split; [repeat split; vm_compute; auto|exact Logic.I]. }
  assert (O2 : exists y, PObj OneNumber zero = PObj OneNumber y /\ s_ok OneNumber y /\ s_dest OneNumber y).
  { eexists. split; [reflexivity|]. repeat split; vm_compute; auto. }
  split; [|split; [repeat split|split; [|split]]].
  - split; [split; [vm_compute; reflexivity|exact K]|]. split; [split; [exact K|split; [split; [|split; [exact S1|exact S2]]|split; [exact K|exact Logic.I]]]|].
    + repeat split; try discriminate; vm_compute; discriminate.
    + split; [split; [exact K|exact Logic.I]|]. split; [|split; [exact O1|exact Logic.I]].
      split; [exact K|]. split; [repeat constructor; vm_compute; reflexivity|].
      split; [exact Logic.I|]. split; [split; [exact O1|split; [exact K|exact Logic.I]]|exact Logic.I].
  - eexists _, _. split; [reflexivity|]. split; [exists a_zero; split; [reflexivity|]; split; [repeat split|exact Logic.I]|].
    eexists _, _. split; [reflexivity|]. split.
    { eexists. split; [reflexivity|]. intros _. eexists _, _. split; [reflexivity|].
      split; [eexists; split; [reflexivity|]; split; [apply s_new_ok|apply s_new_dest]|].
      eexists _, _. split; [reflexivity|]. split; [right; eauto|reflexivity]. }
    eexists _, _. split; [reflexivity|]. split; [eexists; split; [reflexivity|intros H; destruct H; reflexivity]|].
    eexists _, _. split; [reflexivity|]. split.
    { eexists _, _. split; [reflexivity|]. split; [split; discriminate|].
      eexists _, _. split; [reflexivity|]. split; [intros H; destruct H; reflexivity|].
      eexists _, _. split; [reflexivity|]. split; [|reflexivity]. intros _.
      eexists _, _. split; [reflexivity|]. split; [exact O2|].
      eexists _, _. split; [reflexivity|]. split; [right; eauto|reflexivity]. }
    eexists _, _. split; [reflexivity|]. split; [exact O2|reflexivity].
  - repeat split; vm_compute; congruence.
  - eexists _, _, _, _. split; [vm_compute; reflexivity|]. split; [vm_compute; reflexivity|]. split; [vm_compute; reflexivity|]. vm_compute. reflexivity.
Qed.

(** The reading program of the example satisfies the hypothesis of C49_any_bytes. On a stream that is cut behind the header of
    the array it fails having found the parts before; a program that asks for an index throws on an array that
    claims 2^40 indices, and the reason is found. *)
Definition reads1 : parts := PCons (PArray k_ab (Some []) PENil) PNil.
Definition damaged : list byte := n2b 0xd1 :: num W64 false 16 ++ n2b 2 :: k_ab ++ num W16 false 0x104 ++ num W64 false 0 ++ num W64 false (2^40).
Example C49_any_example : parts_reader reads0 /\ parts_reader reads1 /\
  (exists y st, read_parts ulasts env0 0 reads0 (r_open (RS (firstn 17 (nodes_bytes true (parts_doc parts0))) 0 true)) = Done (false, y, st) /\
    y = PCons (PItem a_number) (PCons (PNull k_ab) PNil)) /\
  read_parts ulasts env0 0 reads1 (r_open (RS damaged 0 false)) = Throw /\
  index_refused (e_lim env0) damaged false 0 (parts_index reads1).
Proof.
  split; [|split; [|split; [|split]]].
  - assert (N : name_ok k_ab) by (split; [reflexivity|vm_compute; discriminate]).
    assert (Nz : part_reader (PItem a_zero)) by (split; [exact N|split; [repeat split; reflexivity|exact Logic.I]]).
    assert (Oz : part_reader (PObj OneNumber zero)).
    { split; [repeat split; vm_compute; congruence|]. repeat split; vm_compute; auto. }
    assert (Os : part_reader (PObj Scene (m_new (smf ulasts Scene)))).
    { split; [repeat split; vm_compute; congruence|]. split; [apply s_new_ok|apply s_new_dest]. }
    split; [exact Nz|]. split; [split; [exact N|split; [exact Os|split; [split; [exact N|exact Logic.I]|exact Logic.I]]]|].
    split; [split; [exact N|split; [exact Nz|exact Logic.I]]|]. split; [|split; [exact Oz|exact Logic.I]].
    split; [exact N|]. split; [split; [exact Nz|exact Logic.I]|].
    split; [split; [exact Oz|split; [split; [exact N|exact Logic.I]|exact Logic.I]]|exact Logic.I].
  - repeat split; vm_compute; congruence.
  - eexists _, _. split; vm_compute; reflexivity.
  - vm_compute. reflexivity.
  - exists k_ab. split; [left; left; split; [reflexivity|discriminate]|]. right.
    exists 0, 16, (num W16 false 0x104 ++ num W64 false 0 ++ num W64 false (2^40)). split; [vm_compute; split; discriminate|]. split; [split; [reflexivity|]|]; vm_compute; reflexivity.
Qed.
