(** * A successful read means the block was written with that type and key. *)
From Verif Require Import Base Bytes BytesFacts Values Streams FileSpec ReadSpec StreamFacts StreamProps Types Format
  Accept EntityWriter EntityReader EntityWriterFacts PackFacts ArrayWriterFacts EntityReaderFacts EntitySafety ArraySafety
  ReadTotal Items ItemSpec EntityProps.
Open Scope N_scope.

Lemma n2b_inj a b : a < 256 -> b < 256 -> n2b a = n2b b -> a = b.
Proof. intros Ha Hb H. apply (f_equal b2n) in H. rewrite !b2n_n2b_small in H by assumption. exact H. Qed.

Lemma num_inj w fl a b : a < 256 ^ wbytes w -> b < 256 ^ wbytes w -> num w fl a = num w fl b -> a = b.
Proof.
  intros Ha Hb H. unfold num, stored in H.
  assert (E : le (N.to_nat (wbytes w)) a = le (N.to_nat (wbytes w)) b).
  { destruct fl; [|exact H]. apply (f_equal (@rev byte)) in H. rewrite !rev_involutive in H. exact H. }
  apply (f_equal of_le) in E. rewrite !of_le_le_small in E by (rewrite Nnat.N2Nat.id; assumption). exact E.
Qed.

Lemma app_inv_len {A} (a b c d : list A) : len a = len c -> a ++ b = c ++ d -> a = c /\ b = d.
Proof.
  intros Hl H. assert (a = c).
  { apply (f_equal (take (len a))) in H. rewrite take_len_app, Hl, take_len_app in H. exact H. }
  subst. split; [reflexivity|]. eapply app_inv_head; exact H.
Qed.

Lemma small_block_inj vt key p vt' key' p' r r' :
  vt < 256 -> vt' < 256 -> len p + len key < 256 -> len p' + len key' < 256 ->
  small_block vt key p ++ r = small_block vt' key' p' ++ r' ->
  vt = vt' /\ p ++ key = p' ++ key' /\ r = r'.
Proof.
  intros H1 H2 H3 H4 E. unfold small_block in E. cbn [app] in E. injection E as E1 E2 E3.
  apply n2b_inj in E1; [|assumption..]. apply n2b_inj in E2; [|assumption..].
  apply app_inv_len in E3; [|rewrite !len_app; exact E2]. tauto.
Qed.

Lemma large_block_inj fl vt key p vt' key' p' r r' :
  vt < 256 -> vt' < 256 -> len key < 256 -> len key' < 256 ->
  1 + len key + len p < two64 -> 1 + len key' + len p' < two64 ->
  large_block fl vt key p ++ r = large_block fl vt' key' p' ++ r' ->
  vt = vt' /\ key = key' /\ p = p' /\ r = r'.
Proof.
  intros H1 H2 H3 H4 H5 H6 E. unfold large_block in E. cbn [app] in E. injection E as E1 E2.
  apply n2b_inj in E1; [|assumption..]. rewrite <- !app_assoc in E2.
  apply app_inv_len in E2; [|rewrite !len_num; reflexivity]. destruct E2 as (E2 & E3).
  apply num_inj in E2; [|assumption..]. cbn [app] in E3. injection E3 as E3 E4. apply n2b_inj in E3; [|assumption..].
  rewrite <- !app_assoc in E4. apply app_inv_len in E4; [|exact E3]. destruct E4 as (-> & E4).
  apply app_inv_len in E4; [|lia]. tauto.
Qed.

Lemma len_lblock fl vt key p : len (large_block fl vt key p) = 10 + len key + len p.
Proof. unfold large_block. rewrite len_cons, len_app, len_num, len_cons, len_app. cbn [wbytes]. lia. Qed.

Lemma large_byte t c : large t c = (64 <=? type_byte t c).
Proof. destruct c, t as [|[]|[]|[]|[] []|[] []|[] []|[] []|[]| | | | |]; reflexivity. Qed.

(** Payload of an item. *)
Definition payload_of (fl : bool) (t : dtype) (v : cval) : list byte :=
  let single o := match o with
    | Some x => match dshape t with
                | ShBool => [if the_bool x then x01 else x00]
                | ShPod k n => element_bytes k n fl (the_image x)
                | ShString => string_bytes fl (the_string x)
                end
    | None => [] end in
  let arr a := match a with Some (items, ix) => array_payload fl (dshape t) items ix | None => [] end in
  match v with
  | CV v => single (Some v)
  | COpt o => single o
  | CVec l => arr (Some (l, None))
  | COptVec o => arr (match o with Some l => Some (l, None) | None => None end)
  | CIdx l ix => arr (Some (l, Some ix))
  | COptIdx o => arr (match o with Some (l, ix) => Some (l, Some ix) | None => None end)
  end.

Lemma encode_form fl t key v :
  encode fl t key v = (if large t (cval_ctype v) then large_block fl (type_byte t (cval_ctype v)) key (payload_of fl t v)
                       else small_block (type_byte t (cval_ctype v)) key (payload_of fl t v)).
Proof.
  destruct v as [v|o|l|o|l ix|o]; cbn [cval_ctype large type_byte encode payload_of]; unfold single_block, array_block;
    destruct t as [|[]|[]|[]|[] []|[] []|[] []|[] []|[]| | | | |]; cbn [dshape]; try reflexivity; destruct o; reflexivity.
Qed.

Lemma small_payload fl t v : cval_ok t v -> large t (cval_ctype v) = false -> len (payload_of fl t v) <= 128.
Proof.
  intros Hv Hl. pose proof (pod_size_small t) as Hsm.
  assert (G : forall x, t <> TString -> val_ok t x -> len (match dshape t with
                | ShBool => [if the_bool x then x01 else x00]
                | ShPod k n => element_bytes k n fl (the_image x)
                | ShString => string_bytes fl (the_string x)
                end) <= 128).
  { intros x Hs Hx. assert (Hn : dshape t <> ShString) by (destruct t; discriminate || contradiction).
    unfold val_ok in Hx. destruct (dshape t) as [| |k n].
    - rewrite len_cons, len_nil. lia.
    - contradiction.
    - destruct x; cbn in Hx; try contradiction. cbn [the_image]. rewrite len_element_bytes by exact Hx. apply Hsm. reflexivity. }
  destruct v as [v|[v|]|l|o|l ix|o]; cbn [cval_ctype large payload_of cval_ok] in *; try discriminate Hl.
  - apply G; [destruct t; discriminate|exact Hv].
  - apply G; [destruct t; discriminate|exact Hv].
  - rewrite len_nil. lia.
Qed.

(** The form of accepted blocks. *)
Lemma accepts_form eos fl t key bs w : accepts eos fl t key bs w ->
  if large t (cval_ctype w)
  then (exists p, bs = large_block fl (type_byte t (cval_ctype w)) key p /\
          match w with
          | CVec l => array_carries eos fl (dshape t) p l None
          | COptVec (Some l) => array_carries eos fl (dshape t) p l None
          | CIdx l ix => array_carries eos fl (dshape t) p l (Some ix)
          | COptIdx (Some (l, ix)) => array_carries eos fl (dshape t) p l (Some ix)
          | CV v => single_carries eos fl (dshape t) p v
          | COpt (Some v) => single_carries eos fl (dshape t) p v
          | _ => p = []
          end)
       \/ (exists n k', len k' < len key /\ bs = n2b (type_byte t (cval_ctype w)) :: num W64 fl n ++ n2b (len key) :: k' /\ eos = true)
  else exists p, bs = small_block (type_byte t (cval_ctype w)) key p /\
         match w with
         | CV v | COpt (Some v) => single_carries eos fl (dshape t) p v
         | _ => p = []
         end.
Proof.
  intros H.
  assert (N0 : forall vt, null_large eos fl vt key bs ->
      (exists p, bs = large_block fl vt key p /\ p = []) \/
      (exists n k', len k' < len key /\ bs = n2b vt :: num W64 fl n ++ n2b (len key) :: k' /\ eos = true)).
  { intros vt [->|(He & n & k' & Hl & ->)]; [left; eauto|right; eauto]. }
  destruct w as [v|[v|]|l|[l|]|l ix|[[l ix]|]]; cbn [accepts single_accepts array_accepts cval_ctype large type_byte] in *.
  - destruct H as (p & Hp & ->). destruct t; try (exists p; split; [reflexivity|exact Hp]).
    left. exists p. split; [reflexivity|exact Hp].
  - destruct H as (p & Hp & ->). destruct t; try (exists p; split; [reflexivity|exact Hp]).
    left. exists p. split; [reflexivity|exact Hp].
  - destruct t; try (exists []; split; [exact H|reflexivity]). apply N0. exact H.
  - destruct H as (p & Hp & ->). left. eauto.
  - destruct H as (p & Hp & ->). left. eauto.
  - apply N0. exact H.
  - destruct H as (p & Hp & ->). left. eauto.
  - destruct H as (p & Hp & ->). left. eauto.
  - apply N0. exact H.
Qed.

Lemma carries_small eos fl t p v : t <> TString -> single_carries eos fl (dshape t) p v -> len p <= 128 /\ 0 < len p.
Proof.
  intros Ht H. pose proof (pod_size_small t) as Hsm. pose proof (dshape_ok t) as Hok.
  assert (Hn : dshape t <> ShString) by (destruct t; discriminate || contradiction).
  destruct (dshape t) as [| |k n]; destruct v; cbn in H; try contradiction.
  - destruct H as (x & -> & _). rewrite len_cons, len_nil. lia.
  - destruct H as (H1 & ->). rewrite len_element_bytes by exact H1. specialize (Hsm k n eq_refl).
    unfold h_ok in Hok. pose proof (ksize_pos k). split; [lia|]. nia.
Qed.

(** Value types and sizes determine the layout. *)
Definition h_bytes (h : shape) : N := match h with ShPod k n => n * ksize k | ShBool => 1 | ShString => 0 end.
Lemma layout_single t t' : vt_single t = vt_single t' -> h_bytes (dshape t) = h_bytes (dshape t') -> dshape t = dshape t'.
Proof.
  destruct t as [|[]|[]|[]|[] []|[] []|[] []|[] []|[]| | | | |]; destruct t' as [|[]|[]|[]|[] []|[] []|[] []|[] []|[]| | | | |];
    cbn; intros; try reflexivity; discriminate.
Qed.
Definition h_elem (h : shape) : N := match h with ShPod k n => ksize k | _ => 0 end.
Lemma layout_array t t' : vt_array t = vt_array t' -> h_elem (dshape t) = h_elem (dshape t') -> dshape t = dshape t'.
Proof.
  destruct t as [|[]|[]|[]|[] []|[] []|[] []|[] []|[]| | | | |]; destruct t' as [|[]|[]|[]|[] []|[] []|[] []|[] []|[]| | | | |];
    cbn; intros; try reflexivity; discriminate.
Qed.

Lemma carries_bytes eos fl t p v : t <> TString -> single_carries eos fl (dshape t) p v -> len p = h_bytes (dshape t).
Proof.
  intros Ht H. assert (Hn : dshape t <> ShString) by (destruct t; discriminate || contradiction).
  destruct (dshape t) as [| |k n]; destruct v; cbn in H; try contradiction.
  - destruct H as (x & -> & _). reflexivity.
  - destruct H as (H1 & ->). rewrite len_element_bytes by exact H1. reflexivity.
Qed.

(** The flags an array block starts with. *)
Lemma payload_array_head fl t items ix : exists r,
  array_payload fl (dshape t) items ix = num W16 fl (h_elem (dshape t) + (match ix with Some _ => 256 | None => 0 end)) ++ r.
Proof. unfold array_payload. destruct (dshape t); cbn [h_elem]; eauto. Qed.
Lemma carries_array_head eos fl t p items ix : array_carries eos fl (dshape t) p items ix ->
  exists flags r, p = num W16 fl flags ++ r /\ flags < 65536 /\
    N.testbit flags 8 = (match ix with Some _ => true | None => false end) /\
    (match dshape t with ShPod k _ => flags mod 256 = ksize k | _ => True end).
Proof.
  intros (flags & body & H1 & H2 & H3 & H4 & H5 & H6 & ->). exists flags.
  eexists. split; [reflexivity|]. split; [exact H1|]. split; [exact H2|].
  destruct (dshape t); auto. tauto.
Qed.

Lemma h_elem_small t : h_elem (dshape t) < 64.
Proof. destruct t as [|[]|[]|[]|[] []|[] []|[] []|[] []|[]| | | | |]; cbn; lia. Qed.

Lemma testbit_8 k b : k < 256 -> N.testbit (k + (if b : bool then 256 else 0)) 8 = b.
Proof.
  intros H. rewrite N.testbit_eqb. change (2^8) with 256. destruct b.
  - replace ((k + 256) / 256) with 1; [reflexivity|]. apply N.div_unique with k; lia.
  - rewrite N.add_0_r, N.div_small by exact H. reflexivity.
Qed.

Definition w_array (w : cval) : option (list val * option (list N)) :=
  match w with
  | CVec l | COptVec (Some l) => Some (l, None)
  | CIdx l ix | COptIdx (Some (l, ix)) => Some (l, Some ix)
  | _ => None
  end.

(** The main fact. *)
Lemma success_same_block fl t key v t' key' bs rest post w eos :
  cval_ok t v -> len key <= 40 -> 0 < len key' -> len key' <= 40 ->
  len (encode fl t key v ++ post) < two64 ->
  encode fl t key v ++ post = bs ++ rest -> (eos = true -> rest = []) ->
  accepts eos fl t' key' bs w ->
  type_byte t' (cval_ctype w) = type_byte t (cval_ctype v) /\
  (large t (cval_ctype v) = true -> key' = key) /\
  (len key' = len key -> key' = key) /\
  (key' = key -> ~ is_null v -> ~ is_null w /\ dshape t' = dshape t /\ indexed (cval_ctype w) = indexed (cval_ctype v)).
Proof.
  intros Hv Hk Hk0' Hk' Hs E Heos Hacc. pose proof (accepts_form _ _ _ _ _ _ Hacc) as F.
  pose proof (large_byte t (cval_ctype v)) as L1. pose proof (large_byte t' (cval_ctype w)) as L2.
  assert (Htb : type_byte t' (cval_ctype w) = type_byte t (cval_ctype v)).
  { destruct (encode_head fl t key v) as (r & Er). rewrite Er in E.
    assert (Hb : exists r', bs = n2b (type_byte t' (cval_ctype w)) :: r').
    { destruct (large t' (cval_ctype w)).
      - destruct F as [(p & -> & _)|(n & k' & _ & -> & _)]; unfold large_block; eauto.
      - destruct F as (p & -> & _). unfold small_block. eauto. }
    destruct Hb as (r' & ->). cbn [app] in E. injection E as E _. symmetry. apply n2b_inj in E; auto using type_byte_lt. }
  split; [exact Htb|]. rewrite Htb, <- L1 in L2.
  rewrite encode_form in E, Hs. rewrite L2 in F. destruct (large t (cval_ctype v)) eqn:EL.
  - assert (Hkey : key' = key /\ exists p, p = payload_of fl t v /\ (match w with
          | CVec l => array_carries eos fl (dshape t') p l None
          | COptVec (Some l) => array_carries eos fl (dshape t') p l None
          | CIdx l ix => array_carries eos fl (dshape t') p l (Some ix)
          | COptIdx (Some (l, ix)) => array_carries eos fl (dshape t') p l (Some ix)
          | CV v => single_carries eos fl (dshape t') p v
          | COpt (Some v) => single_carries eos fl (dshape t') p v
          | _ => p = []
          end)).
    { destruct F as [(p & -> & Hp)|(n & k' & Hl & -> & He)].
      - pose proof (f_equal (@len byte) E) as El.
        rewrite !len_app, !len_lblock in El. rewrite len_app, len_lblock in Hs.
        apply large_block_inj in E; try apply type_byte_lt; try lia.
        destruct E as (_ & -> & -> & _). eauto.
      - rewrite (Heos He), app_nil_r in E. exfalso. unfold large_block in E. cbn [app] in E. injection E as _ E.
        rewrite <- !app_assoc in E. apply app_inv_len in E; [|rewrite !len_num; reflexivity]. destruct E as (_ & E).
        cbn [app] in E. injection E as E1 E2. apply n2b_inj in E1; [|lia|lia].
        apply (f_equal (@len byte)) in E2. rewrite !len_app in E2. lia. }
    destruct Hkey as (-> & p & -> & Hp). split; [reflexivity|]. split; [reflexivity|]. intros _ Hnn.
    assert (Harr : forall l ix l' ix', vt_array t = vt_array t' ->
        array_carries eos fl (dshape t') (array_payload fl (dshape t) l ix) l' ix' ->
        dshape t' = dshape t /\ (match ix' with Some _ => true | None => false end) = (match ix with Some _ => true | None => false end)).
    { intros l ix l' ix' Hvt Hc. destruct (payload_array_head fl t l ix) as (r1 & E1).
      destruct (carries_array_head _ _ _ _ _ _ Hc) as (flags & r2 & E2 & Hf & Hb & He).
      rewrite E1 in E2. apply app_inv_len in E2; [|rewrite !len_num; reflexivity]. destruct E2 as (E2 & _).
      pose proof (h_elem_small t) as Hes. pose proof (h_elem_small t') as Hes'.
      apply num_inj in E2; [|change (256 ^ wbytes W16) with 65536; destruct ix; lia|exact Hf]. subst flags.
      assert (Hb' : N.testbit (h_elem (dshape t) + match ix with Some _ => 256 | None => 0 end) 8 = match ix with Some _ => true | None => false end).
      { destruct ix; [apply (testbit_8 _ true)|apply (testbit_8 _ false)]; lia. }
      rewrite Hb' in Hb. split; [|congruence].
      symmetry. apply layout_array; [exact Hvt|].
      assert (Hmod : (h_elem (dshape t) + match ix with Some _ => 256 | None => 0 end) mod 256 = h_elem (dshape t)).
      { destruct ix.
        - replace (h_elem (dshape t) + 256) with (h_elem (dshape t) + 1 * 256) by lia. rewrite N.mod_add by lia.
          apply N.mod_small. lia.
        - rewrite N.add_0_r. apply N.mod_small. lia. }
      rewrite Hmod in He.
      assert (Hcls : match dshape t, dshape t' with ShPod _ _, ShPod _ _ | ShBool, ShBool | ShString, ShString => True | _, _ => False end).
      { revert Hvt. clear. destruct t as [|[]|[]|[]|[] []|[] []|[] []|[] []|[]| | | | |];
          destruct t' as [|[]|[]|[]|[] []|[] []|[] []|[] []|[]| | | | |]; cbn; intros; try exact I; discriminate. }
      destruct (dshape t), (dshape t'); cbn [h_elem] in *; try contradiction; auto. }
    assert (Hne : forall l ix, array_payload fl (dshape t) l ix <> []).
    { intros l ix Ea. destruct (payload_array_head fl t l ix) as (r1 & E1). rewrite E1 in Ea.
      apply (f_equal (@len byte)) in Ea. rewrite len_app, len_num, len_nil in Ea. cbn [wbytes] in Ea. lia. }
    assert (Hvs : forall a b, vt_single a <> vt_array b -> True) by auto.
    assert (Hdist : vt_single t <> vt_array t' /\ vt_array t <> vt_single t').
    { destruct t as [|[]|[]|[]|[] []|[] []|[] []|[] []|[]| | | | |];
          destruct t' as [|[]|[]|[]|[] []|[] []|[] []|[] []|[]| | | | |]; cbn; split; intros X; discriminate. }
    assert (Hstr : t = TString -> vt_single t' = vt_single t -> t' = TString).
    { intros -> Hx. destruct t' as [|[]|[]|[]|[] []|[] []|[] []|[] []|[]| | | | |]; cbn in Hx; try discriminate; reflexivity. }
    destruct Hdist as (D1 & D2).
    destruct v as [v|[v|]|l|[l|]|l ix|[[l ix]|]]; cbn [is_null] in Hnn; try tauto; cbn [cval_ctype type_byte payload_of large] in *;
      destruct w as [x|[x|]|m|[m|]|m jx|[[m jx]|]]; cbn [cval_ctype type_byte indexed is_null] in *; try congruence.
    all: try (destruct (Harr _ _ _ _ (eq_sym Htb) Hp) as (? & ?); split; [tauto|]; split; [assumption|reflexivity || congruence]; fail).
    all: try (exfalso; eapply Hne; exact Hp).
    all: destruct t; try discriminate EL; rewrite (Hstr eq_refl Htb) in *; cbn [dshape] in *.
    all: try (split; [tauto|split; reflexivity]).
    all: exfalso; apply (f_equal (@len byte)) in Hp; rewrite len_string_bytes, len_nil in Hp; lia.
  - destruct F as (p & -> & Hp).
    assert (Ht' : t' <> TString).
    { intros ->. destruct w; cbn in L2; discriminate. }
    assert (Hlp : len p <= 128).
    { destruct w as [x|[x|]| | | |]; try (subst p; rewrite len_nil; lia); eapply carries_small; eassumption. }
    pose proof (small_payload fl t v Hv EL) as Hlv.
    apply small_block_inj in E; [|apply type_byte_lt|apply type_byte_lt|lia|lia].
    destruct E as (_ & E & _).
    assert (Hkk : len key' = len key -> key' = key /\ p = payload_of fl t v).
    { intros Hl. apply app_inv_len in E; [destruct E; split; congruence|].
      apply (f_equal (@len byte)) in E. rewrite !len_app in E. lia. }
    split; [discriminate|]. split; [intros Hl; apply Hkk; exact Hl|]. intros -> Hnn.
    destruct (Hkk eq_refl) as (_ & ->).
    assert (Hts : t <> TString).
    { intros ->. destruct v; cbn in EL; discriminate. }
    assert (G : exists x, (v = CV x \/ v = COpt (Some x)) /\ val_ok t x).
    { destruct v as [x|[x|]|l|[l|]|l ix|[[l ix]|]]; cbn in EL, Hnn, Hv; try discriminate; try tauto; eauto. }
    assert (Hlen : len (payload_of fl t v) = h_bytes (dshape t)).
    { destruct G as (x & Hx & Hok). unfold val_ok in Hok.
      assert (Hn : dshape t <> ShString) by (destruct t; discriminate || contradiction).
      destruct Hx as [-> | ->]; cbn [payload_of]; destruct (dshape t) as [| |k n]; try contradiction; try reflexivity;
        destruct x; cbn in Hok; try contradiction; cbn [the_image h_bytes]; apply len_element_bytes; exact Hok. }
    assert (Hpos : 0 < h_bytes (dshape t)).
    { clear -Hts. destruct t as [|[]|[]|[]|[] []|[] []|[] []|[] []|[]| | | | |]; cbn; try lia. contradiction. }
    assert (Hwx : exists x, (w = CV x \/ w = COpt (Some x)) /\ single_carries eos fl (dshape t') (payload_of fl t v) x).
    { destruct w as [x|[x|]| | | |]; eauto; try (cbn in L2; discriminate).
      exfalso. rewrite Hp, len_nil in Hlen. lia. }
    destruct Hwx as (x & Hwx & Hc). pose proof (carries_bytes _ _ _ _ _ Ht' Hc) as Hb.
    assert (Hvt : vt_single t = vt_single t').
    { destruct G as (y & [-> | ->] & _), Hwx as [-> | ->]; cbn in Htb; congruence. }
    split; [destruct Hwx as [-> | ->]; cbn; tauto|]. split; [symmetry; apply layout_single; [exact Hvt|lia]|].
    destruct G as (y & [-> | ->] & _), Hwx as [-> | ->]; reflexivity.
Qed.
