(** * IndexedVector. Proofs. *)
From Verif Require Import Base Bytes BytesFacts Values Streams Types Format EntityWriter EntityReader Sections Validator Containers ValueEq ValueEqSpec ValueEqFacts
  Classes IndexedVector IndexedVectorSpec Items ItemSpec Documents DocSpec EntityProps CodecFacts.
Open Scope N_scope.

Lemma iv_item_ok t o : iv_ok t o -> item_ok (Item t key_values (CIdx (iv_values o) (iv_index o))).
Proof. intros (H1 & H2). split; [split; assumption|vm_compute; discriminate]. Qed.
Lemma iv_bytes t o fl : nodes_bytes fl (iv_doc t o) = encode fl t key_values (CIdx (iv_values o) (iv_index o)).
Proof. unfold iv_doc. cbn [nodes_bytes node_bytes i_type i_key i_val]. apply app_nil_r. Qed.
Lemma iv_writes t o : iv_ok t o -> writes (fun h st => iv_write t h o st) (fun fl => nodes_bytes fl (iv_doc t o)).
Proof. intros H. eapply writes_ext; [exact (writes_item _ _ _ (iv_item_ok t o H))|reflexivity|intros; apply iv_bytes]. Qed.
Lemma iv_reads t o d : iv_ok t o -> iv_ok t d -> replaced t (CIdx (iv_values d) (iv_index d)) ->
  reads (fun e h st => iv_read t e h d st) (fun fl => nodes_bytes fl (iv_doc t o)) o.
Proof.
  intros H Hd Hr. pose proof (reads_map _ (fun _ v => iv_of d v) _ _ (reads_item _ _ _ (CIdx (iv_values d) (iv_index d)) (iv_item_ok t o H) eq_refl Hd Hr)) as Q.
  cbn [iv_of] in Q. assert (E : IVec (iv_values o) (iv_index o) = o) by (destruct o; reflexivity). rewrite E in Q.
  eapply reads_ext; [exact Q|reflexivity|intros; apply iv_bytes].
Qed.

Lemma refers_iff (v : list val) i : i < 2^32 -> len v <= i32_sup -> (refers v i <-> i < len v).
Proof.
  intros Hi Hv. unfold refers, i32_of, i32_sup in *. change (2^32)%N with 4294967296 in *. change (2^31)%N with 2147483648 in *.
  destruct (N.ltb_spec i 2147483648); lia.
Qed.
Lemma t_iv_validate o : ix_ok (iv_index o) ->
  (In InvalidCount (iv_validate o) <-> 2^31 - 1 < len (iv_values o)) /\
  (len (iv_values o) <= 2^31 - 1 -> (In InvalidValue (iv_validate o) <-> exists i, In i (iv_index o) /\ ~ refers (iv_values o) i)) /\
  (iv_validate o = [] <-> len (iv_values o) <= 2^31 - 1 /\ forall i, In i (iv_index o) -> refers (iv_values o) i).
Proof.
  intros Hx. unfold iv_validate. fold i32_sup. set (L := flat_map _ (iv_index o)). unfold ix_ok in Hx. rewrite Forall_forall in Hx.
  assert (HL : forall id, In id L <-> id = InvalidValue /\ exists i, In i (iv_index o) /\ N.min (len (iv_values o)) i32_sup <= i).
  { intros id. unfold L. rewrite in_flat_map. split.
    - intros (i & Hi & H). rewrite N.mod_small in H by auto. destruct (N.leb_spec (N.min (len (iv_values o)) i32_sup) i); [|destruct H].
      destruct H as [<-|[]]. split; eauto.
    - intros (-> & i & Hi & H). exists i. split; auto. rewrite N.mod_small by auto.
      destruct (N.leb_spec (N.min (len (iv_values o)) i32_sup) i); [left; auto|lia]. }
  assert (HV : len (iv_values o) <= i32_sup -> (In InvalidValue L <-> exists i, In i (iv_index o) /\ ~ refers (iv_values o) i)).
  { intros Hs. rewrite HL. split.
    - intros (_ & i & Hi & H). exists i. split; auto. rewrite refers_iff by auto. lia.
    - intros (i & Hi & H). split; auto. exists i. split; auto. rewrite refers_iff in H by auto. lia. }
  assert (HN : L = [] <-> ~ In InvalidValue L).
  { split; [intros ->; auto|]. intros H. destruct L as [|x l] eqn:E; auto. destruct H. destruct (proj1 (HL x) (or_introl eq_refl)) as [-> _]. left; auto. }
  destruct (N.ltb_spec i32_sup (len (iv_values o))) as [H|H]; cbn [app].
  - split; [|split].
    + split; auto. intros _. left; auto.
    + lia.
    + split; [discriminate|]. intros [X _]. lia.
  - split; [|split].
    + rewrite HL. split; [intros [X _]; discriminate|]. lia.
    + intros _. apply HV; auto.
    + rewrite HN, HV by auto. split.
      * intros X. split; auto. intros i Hi. rewrite refers_iff by auto. destruct (N.lt_ge_cases i (len (iv_values o))); auto.
        destruct X. exists i. split; auto. rewrite refers_iff by auto. lia.
      * intros [_ X] (i & Hi & Hn). auto.
Qed.
