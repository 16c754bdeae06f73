(** * C58: the tests of EntityTable and of entities succeed for every outcome of the random generator. *)
From Verif Require Import Base Values Types Streams EntityWriter EntityReader Items ItemSpec Sections Documents DocSpec Keys KeyFacts Table TableSpec EntityGen EntitySpec
  Properties_Table TestDict TestDictSpec TestDictFacts.
Open Scope N_scope.

(** C58, the validation part of the test: for every key type and whatever keys are drawn (also twice, also zero), all
    assertions of the four blocks are true. *)
Theorem C58_dict_validation : forall U k n keys, validation_test U k n keys = [Some true; Some true; Some true; Some true].
Proof. exact t_validation. Qed.
Print Assumptions C58_dict_validation.

(** C58, the copy and move part: it never ends in undefined behaviour, and it passes exactly if no copy is made at an address
    where an entity of the first table was at any time. *)
Theorem C58_dict_copy : forall U k draws copies, Forall (fun d => val_ok TString (c_text k d)) draws ->
  exists ok, copy_test U k draws copies = Done ok /\ (ok = true <-> forall a, In a copies -> ~ In a (map (c_addr k) draws)).
Proof. exact t_copy_test. Qed.
Print Assumptions C58_dict_copy.
(** So it passes if the keys drawn are different: then all the recorded entities live when the copies are made. *)
Theorem C58_dict_copy_distinct : forall U k draws copies, Forall (fun d => val_ok TString (c_text k d)) draws ->
  NoDup (map (c_key k) draws) -> copy_addrs_ok U k draws copies -> copy_test U k draws copies = Done true.
Proof. exact t_copy_pass. Qed.
Print Assumptions C58_dict_copy_distinct.

Definition u0 : forall t, umap_impl (key t) := fun t => u_last (key t).
Definition ki8 : ktype := KeyT (TInt I8) eq_refl eq_refl eq_refl.
Definition i8k (b : byte) : kkey ki8 := exist _ (VP [b]) eq_refl.
(** C58, finding: if a key is drawn twice, the first of its entities is freed, and a free store that uses the place again for a
    copy makes the assertion false: the test can fail although the copy is deep. *)
Definition twice : list (cdraw ki8) :=
  [CDraw (i8k x05) (VS [x61]) 1; CDraw (i8k x05) (VS [x62]) 2; CDraw (i8k x07) (VS [x63]) 3].
Theorem C58_dict_copy_refuted : exists copies,
  Forall (fun d => val_ok TString (c_text ki8 d)) twice /\ draw_addrs_ok u0 ki8 twice /\ copy_addrs_ok u0 ki8 twice copies /\
  copy_test u0 ki8 twice copies = Done false.
Proof.
  exists [1; 4]. split; [|split; [|split]].
  - repeat constructor.
  - apply addrs_distinct; [repeat constructor|]. cbn. repeat constructor; cbn; intuition discriminate.
  - split; [repeat constructor; cbn; intuition discriminate|]. split; [reflexivity|].
    vm_compute. intros a [<-|[<-|[]]] H; repeat (destruct H as [H|H]; [discriminate|]); contradiction.
  - vm_compute. reflexivity.
Qed.
Print Assumptions C58_dict_copy_refuted.

(** C58, the serialization test: for any key types one after another on one writer, in both byte orders, and for whatever keys
    and names are drawn, every random table is valid, is written in the documented layout and read back from where it begins
    as a valid table with the same keys and names. *)
Theorem C58_dict_serialize : forall U e n l init lim fl, Forall (fun c => Forall draw_ok (dc_draws c) /\ len (dc_draws c) < 2^63) l ->
  room init lim (len (flat_map (call_doc U fl) l)) -> 4 * len (flat_map (call_doc U fl) l) <= e_lim e ->
  exists s0 st, fresh init lim fl = Done s0 /\ dict_rws U e n l (w_open s0) = Done (true, st) /\ ws_data (w_stream st) = flat_map (call_doc U fl) l.
Proof. exact t_dict_serialize. Qed.
Print Assumptions C58_dict_serialize.

(** C58, the test of entities: it passes exactly if the first name is not empty and the names and texts of the two entities are
    not both equal. *)
Theorem C58_entity_test : forall U n name0 name1 text1 name2 text2, Forall (val_ok TString) [name0; name1; text1; name2; text2] ->
  exists ok, entity_test U n name0 name1 text1 name2 text2 = Done ok /\ (ok = true <-> name0 <> VS [] /\ (name1, text1) <> (name2, text2)).
Proof. exact t_entity_test. Qed.
Print Assumptions C58_entity_test.

(** Concrete cases. *)
Example C58_dict_copy_example : let draws := [CDraw (i8k x05) (VS [x61]) 1; CDraw (i8k x00) (VS []) 9; CDraw (i8k x07) (VS [x63]) 3] in
  draw_addrs_ok u0 ki8 draws /\ NoDup (map (c_key ki8) draws) /\ copy_addrs_ok u0 ki8 draws [4; 2; 8] /\ copy_test u0 ki8 draws [4; 2; 8] = Done true.
Proof.
  intros draws. split; [|split; [|split]].
  - apply addrs_distinct; [repeat constructor|]. cbn. repeat constructor; cbn; intuition discriminate.
  - repeat constructor; vm_compute; intuition discriminate.
  - split; [repeat constructor; cbn; intuition discriminate|]. split; [reflexivity|].
    vm_compute. intros a Ha H; repeat (destruct Ha as [<-|Ha]; [repeat (destruct H as [H|H]; [discriminate|]); contradiction|]); contradiction.
  - vm_compute. reflexivity.
Qed.
Definition call_i8 : dcall := DCall ki8 [EDraw [i8k x00; i8k x05] (VS [x61]); EDraw [i8k x05] (VS [x62]); EDraw [i8k xff] (VS [])].
Definition kstr : ktype := KeyT TString eq_refl eq_refl eq_refl.
Definition strk (l : list byte) (H : key_okb TString (VS l) = true) : kkey kstr := exist _ (VS l) H.
Definition call_str : dcall := DCall kstr [EDraw [strk [x61; x62] eq_refl] (VS [x63])].
Example C58_dict_serialize_example : let l := [call_i8; call_str] in
  Forall (fun c => Forall draw_ok (dc_draws c) /\ len (dc_draws c) < 2^63) l /\
  map (fun c => length (t_list (call_dict u0 c))) l = [2; 1]%nat /\ 
  match fresh 64 1000 true with Done s0 => match dict_rws u0 (RE 10000 (fun _ => x00)) 0 l (w_open s0) with Done (ok, _) => ok | _ => false end | _ => false end = true.
Proof.
  split; [|split; vm_compute; reflexivity].
  repeat constructor; try reflexivity; eexists; (split; [cbn; eauto|discriminate]).
Qed.
Example C58_entity_example : forall n, entity_test u0 n (VS [x61]) (VS [x62]) (VS [x63]) (VS [x62]) (VS [x64]) = Done true /\
  entity_test u0 n (VS []) (VS [x62]) (VS [x63]) (VS [x62]) (VS [x64]) = Done false.
Proof. intros n. split; vm_compute; reflexivity. Qed.
