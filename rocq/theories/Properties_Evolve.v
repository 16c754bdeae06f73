(** * C51: class definitions can be changed while data of the old definition exists. *)
From Verif Require Import Base Bytes BytesFacts Values Streams Types Format EntityWriter EntityReader Items ItemSpec EntityProps EntityTheorems Sections Documents DocSpec
  SectionTheorems CodecFacts Keys Containers Classes Table DynTypes Varying EntityGen EntitySpec EvolveSpec EvolveTheorems
  Properties_Entity Properties_Table Properties_Generated Properties_Varying.
Open Scope N_scope.

(** C51: an object of one definition is written, and read as an object of another definition, which differs from
    the first by any changes of types and containers of values, of the definitions of nested objects and table
    entities, of flags, or by having other variables from some variable on. Read decides: it returns true iff there is
    an object of the new definition that says what the written object says, and this is the object it gives; the
    position is behind the data. In all other cases it returns false: it never succeeds with something else,
    does not throw and touches no other memory. *)
Theorem C51_changed : forall U s s' (c : s_change s s') x init lim fl, s_sound s -> s_sound s' -> s_keyed s' -> s_ok s x -> s_fits s x ->
  room init lim (len (nodes_bytes fl (s_doc s x))) ->
  exists s0 st, fresh init lim fl = Done s0 /\ m_write (smf U s) 0 x (w_open s0) = Done (true, st) /\
    forall e old pre post, s_ok s' old -> s_dest s' old ->
      4 * ws_pos (w_stream st) <= e_lim e -> len pre + ws_pos (w_stream st) + len post < 2^62 ->
      let bs := pre ++ ws_data (w_stream st) ++ post in
      exists ok y st', m_read (smf U s') e 0 old (r_open (RS bs (len pre) fl)) = Done (ok, y, st') /\
        (ok = true <-> exists z, s_ok s' z /\ s_as c x z) /\
        (ok = true -> s_ok s' y /\ s_as c x y /\ r_stream st' = RS bs (len pre + ws_pos (w_stream st)) fl).
Proof. exact t_changed. Qed.
Print Assumptions C51_changed.
(** C51: there is at most one such object. *)
Theorem C51_determined : forall s s' (c : s_change s s') x y z, s_as c x y -> s_as c x z -> s_ident s' y z.
Proof. exact (proj1 determined_both). Qed.
Print Assumptions C51_determined.

(** C51: changes that keep all data readable: making values or objects optional, at any depth; exchanging a reference and the
    value it refers to; flags. Every object of the old definition is read successfully. *)
Theorem C51_compatible : forall U s s' (c : s_change s s') x init lim fl, s_safe c -> s_sound s -> s_sound s' -> s_keyed s' -> s_ok s x -> s_fits s x ->
  room init lim (len (nodes_bytes fl (s_doc s x))) ->
  exists s0 st, fresh init lim fl = Done s0 /\ m_write (smf U s) 0 x (w_open s0) = Done (true, st) /\
    forall e old pre post, s_ok s' old -> s_dest s' old ->
      4 * ws_pos (w_stream st) <= e_lim e -> len pre + ws_pos (w_stream st) + len post < 2^62 ->
      let bs := pre ++ ws_data (w_stream st) ++ post in
      exists y st', m_read (smf U s') e 0 old (r_open (RS bs (len pre) fl)) = Done (true, y, st') /\
        s_ok s' y /\ s_as c x y /\ r_stream st' = RS bs (len pre + ws_pos (w_stream st)) fl.
Proof.
  intros U s s' c x init lim fl Sf S S' Kd Ox Fx Hr. destruct (t_changed U s s' c x init lim fl S S' Kd Ox Fx Hr) as (s0 & st & A & B & C).
  exists s0, st. split; [exact A|]. split; [exact B|]. intros e old pre post Oo Do Hal Hs.
  destruct (C e old pre post Oo Do Hal Hs) as (ok & y & st' & E & Q1 & Q2). cbn zeta in *.
  rewrite (proj2 Q1 (proj1 safe_both s s' c x Sf Ox)) in *. exists y, st'. split; [exact E|]. exact (Q2 eq_refl).
Qed.
Print Assumptions C51_compatible.

(** C51: the last variables of the written definition are no longer in the definition: what remains is read as
    before. *)
Theorem C51_dropped : forall U fs more fs' (c : f_change fs fs') x x2 init lim fl, f_sound (f_app fs more) -> f_sound fs' -> f_keyed fs' ->
  f_ok (f_app fs more) (f_join fs more x x2) -> f_fits (f_app fs more) (f_join fs more x x2) ->
  room init lim (len (nodes_bytes fl (f_doc (f_app fs more) (f_join fs more x x2)))) ->
  exists s0 st, fresh init lim fl = Done s0 /\ m_write (smf U (SEntity (f_app fs more))) 0 (f_join fs more x x2) (w_open s0) = Done (true, st) /\
    forall e old pre post, f_ok fs' old -> f_dest fs' old ->
      4 * ws_pos (w_stream st) <= e_lim e -> len pre + ws_pos (w_stream st) + len post < 2^62 ->
      exists ok y st', m_read (smf U (SEntity fs')) e 0 old (r_open (RS (pre ++ ws_data (w_stream st) ++ post) (len pre) fl)) = Done (ok, y, st') /\
        (ok = true <-> exists z, f_ok fs' z /\ f_as c x z) /\
        (ok = true -> f_ok fs' y /\ f_as c x y).
Proof. exact t_dropped. Qed.
Print Assumptions C51_dropped.
(** C51: variables are added behind the others, even optional ones: data of the old definition that ends the stream is
    never read as the new one. *)
Theorem C51_added : forall U fs fs' more (c : f_change fs fs') x init lim fl, f_sound fs -> f_sound (f_app fs' more) -> f_keyed (f_app fs' more) -> more <> FNil ->
  f_ok fs x -> f_fits fs x -> room init lim (len (nodes_bytes fl (f_doc fs x))) ->
  exists s0 st, fresh init lim fl = Done s0 /\ m_write (smf U (SEntity fs)) 0 x (w_open s0) = Done (true, st) /\
    forall e old pre, f_ok (f_app fs' more) old -> f_dest (f_app fs' more) old ->
      1000 + 4 * ws_pos (w_stream st) <= e_lim e -> len pre + ws_pos (w_stream st) < 2^61 ->
      exists y st', m_read (smf U (SEntity (f_app fs' more))) e 0 old (r_open (RS (pre ++ ws_data (w_stream st)) (len pre) fl)) = Done (false, y, st').
Proof. exact t_added. Qed.
Print Assumptions C51_added.

(** C51, findings: inside a nested object, variables cannot be dropped or added behind the others: Read does not look
    at the end of the section. *)
Definition k_a : list byte := [x61].
Definition k_b : list byte := [x62].
Definition k_n : list byte := [x6e].
Definition num1 (b : byte) : cval := CV (VP [b; x00; x00; x00]).
Definition In_a : schema := SEntity (FBase k_a (TUInt I32) CtNone FNil).
Definition In_ab : schema := SEntity (FBase k_a (TUInt I32) CtNone (FBase k_b (TUInt I32) CtNone FNil)).
Definition Out_a : schema := SEntity (FClass k_n In_a (FBase k_b (TUInt I32) CtNone FNil)).
Definition Out_ab : schema := SEntity (FClass k_n In_ab (FBase k_b (TUInt I32) CtNone FNil)).
Definition Last_a : schema := SEntity (FClass k_n In_a FNil).
Definition Last_ab : schema := SEntity (FClass k_n In_ab FNil).
Definition out_a : ty Out_a := ((num1 x01, tt), (num1 x03, tt)).
Definition out_ab : ty Out_ab := ((num1 x01, (num1 x02, tt)), (num1 x03, tt)).
Definition last_ab : ty Last_ab := ((num1 x01, (num1 x02, tt)), tt).
Definition reread (s : schema) (bs : list byte) := m_read (smf ulasts s) env0 0 (m_new (smf ulasts s)) (r_open (RS bs 0 false)).
(** The variable "b" of the nested object (2) is dropped. The outer variable "b" is 3; it is read, successfully, as 2. *)
Theorem C51_nested_dropped_refuted : s_sound Out_ab /\ s_sound Out_a /\ s_keyed Out_a /\ s_ok Out_ab out_ab /\ s_fits Out_ab out_ab /\
  exists s0 st st', fresh 64 100000 false = Done s0 /\ m_write (smf ulasts Out_ab) 0 out_ab (w_open s0) = Done (true, st) /\
    reread Out_a (ws_data (w_stream st)) = Done (true, ((num1 x01, tt), (num1 x02, tt)) : ty Out_a, st').
Proof. repeat (split; [repeat split; discriminate|]). eexists _, _, _. split; [vm_compute; reflexivity|]. split; vm_compute; reflexivity. Qed.
Print Assumptions C51_nested_dropped_refuted.
(** When the nested object is the last variable, it is read, but the position is left inside the data: 7 bytes before its end. *)
Theorem C51_nested_position_refuted : s_sound Last_ab /\ s_sound Last_a /\ s_keyed Last_a /\ s_ok Last_ab last_ab /\ s_fits Last_ab last_ab /\
  exists s0 st st', fresh 64 100000 false = Done s0 /\ m_write (smf ulasts Last_ab) 0 last_ab (w_open s0) = Done (true, st) /\
    reread Last_a (ws_data (w_stream st)) = Done (true, ((num1 x01, tt), tt) : ty Last_a, st') /\
    rs_pos (r_stream st') + 7 = ws_pos (w_stream st).
Proof. repeat (split; [repeat split; discriminate|]). eexists _, _, _. split; [vm_compute; reflexivity|]. split; [vm_compute; reflexivity|]. split; vm_compute; reflexivity. Qed.
Print Assumptions C51_nested_position_refuted.
(** A variable "b" is moved into the nested object, behind its variables: it receives the value of the old outer variable. *)
Theorem C51_nested_added_refuted : s_sound Out_a /\ s_sound Last_ab /\ s_keyed Last_ab /\ s_ok Out_a out_a /\ s_fits Out_a out_a /\
  exists s0 st st', fresh 64 100000 false = Done s0 /\ m_write (smf ulasts Out_a) 0 out_a (w_open s0) = Done (true, st) /\
    reread Last_ab (ws_data (w_stream st)) = Done (true, ((num1 x01, (num1 x03, tt)), tt) : ty Last_ab, st').
Proof. repeat (split; [repeat split; discriminate|]). eexists _, _, _. split; [vm_compute; reflexivity|]. split; vm_compute; reflexivity. Qed.
Print Assumptions C51_nested_added_refuted.

(** Examples: the value "a" of a nested object becomes optional and the object too: it is read. A u32 is changed to an i32: it is not
    read; but the absent u32 is read as an absent u64 (of an absent value only the kind of type is stored). A variable is
    renamed: it is not read. *)
Definition In_opt : schema := SEntity (FBase k_a (TUInt I32) CtOpt FNil).
Definition Opt_a : schema := SEntity (FOpt k_n In_opt (FBase k_b (TUInt I32) CtNone FNil)).
Definition to_opt : s_change Out_a Opt_a :=
  ChEntity _ _ (ChClassOpt k_n In_a In_opt _ _ (ChEntity _ _ (ChBase k_a (TUInt I32) CtNone (TUInt I32) CtOpt _ _ ChNil))
    (ChBase k_b (TUInt I32) CtNone (TUInt I32) CtNone _ _ ChNil)).
Example C51_compatible_example : s_safe to_opt /\ s_sound Out_a /\ s_sound Opt_a /\ s_keyed Opt_a /\ s_ok Out_a out_a /\ s_fits Out_a out_a /\
  s_ok Opt_a (m_new (smf ulasts Opt_a)) /\ s_dest Opt_a (m_new (smf ulasts Opt_a)) /\
  exists st', reread Opt_a (nodes_bytes false (s_doc Out_a out_a)) = Done (true, (Some (COpt (Some (VP [x01; x00; x00; x00])), tt), (num1 x03, tt)) : ty Opt_a, st').
Proof.
  split; [cbn; unfold same_data, widens; tauto|]. repeat (split; [repeat split; discriminate|]). eexists. vm_compute. reflexivity.
Qed.
Definition opt_of (t : dtype) : schema := SEntity (FBase k_a t CtOpt FNil).
Definition retype (t t' : dtype) : s_change (opt_of t) (opt_of t') := ChEntity _ _ (ChBase k_a t CtOpt t' CtOpt _ _ ChNil).
Example C51_changed_example : s_sound (opt_of (TUInt I32)) /\ s_keyed (opt_of (TInt I32)) /\
  (exists y st', reread (opt_of (TInt I32)) (nodes_bytes false (s_doc (opt_of (TUInt I32)) ((COpt (Some (VP [x01; x00; x00; x00])), tt) : ty (opt_of (TUInt I32))))) = Done (false, y, st')) /\
  (exists st', reread (opt_of (TUInt I64)) (nodes_bytes false (s_doc (opt_of (TUInt I32)) ((COpt None, tt) : ty (opt_of (TUInt I32))))) = Done (true, (COpt None, tt) : ty (opt_of (TUInt I64)), st')) /\
  s_as (retype (TUInt I32) (TUInt I64)) ((COpt None, tt) : ty (opt_of (TUInt I32))) ((COpt None, tt) : ty (opt_of (TUInt I64))).
Proof.
  repeat (split; [repeat split; discriminate|]). split; [eexists _, _; vm_compute; reflexivity|]. split; [eexists; vm_compute; reflexivity|].
  split; [|exact I]. split; [reflexivity|]. split; [reflexivity|]. right. split; [exact I|reflexivity].
Qed.
Definition rename : s_change In_a (SEntity (FBase k_b (TUInt I32) CtNone FNil)).
Proof.
  apply ChEntity, ChOther. split; [discriminate|]. right. split; intros (c & E).
  - destruct c as [|? []]; discriminate.
  - destruct c as [|? []]; discriminate.
Defined.
Example C51_renamed_example : s_sound In_a /\ s_keyed (SEntity (FBase k_b (TUInt I32) CtNone FNil)) /\
  (exists y st', reread (SEntity (FBase k_b (TUInt I32) CtNone FNil)) (nodes_bytes false (s_doc In_a ((num1 x01, tt) : ty In_a))) = Done (false, y, st')).
Proof. repeat (split; [repeat split; discriminate|]). eexists _, _. vm_compute. reflexivity. Qed.
(** Dropping and adding at the end of the outermost object. *)
Definition fs_a : fields := FBase k_a (TUInt I32) CtNone FNil.
Definition fs_b : fields := FBase k_b TString CtOpt FNil.
Example C51_end_example : f_app fs_a fs_b = FBase k_a (TUInt I32) CtNone (FBase k_b TString CtOpt FNil) /\
  f_sound (f_app fs_a fs_b) /\ f_keyed (f_app fs_a fs_b) /\ fs_b <> FNil /\
  f_join fs_a fs_b (num1 x01, tt) (COpt None, tt) = (num1 x01, (COpt None, tt)) /\
  (exists st', reread (SEntity fs_a) (nodes_bytes false (f_doc (f_app fs_a fs_b) (f_join fs_a fs_b (num1 x01, tt) (COpt None, tt)))) = Done (true, (num1 x01, tt) : ty (SEntity fs_a), st')) /\
  (exists y st', reread (SEntity (f_app fs_a fs_b)) (nodes_bytes false (f_doc fs_a (num1 x01, tt))) = Done (false, y, st')).
Proof.
  split; [reflexivity|]. split; [repeat split; discriminate|]. split; [repeat split; discriminate|]. split; [discriminate|]. split; [reflexivity|]. split; [eexists; vm_compute; reflexivity|]. eexists _, _. vm_compute. reflexivity.
Qed.
