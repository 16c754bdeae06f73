(** * Proofs of the theorems in Properties_Entity.v. *)
From Verif Require Import Base Bytes BytesFacts Values Streams FileSpec ReadSpec StreamFacts StreamProps Types Format
  Accept EntityWriter EntityReader EntityWriterFacts PackFacts ArrayWriterFacts EntityReaderFacts EntitySafety ArraySafety
  ReadTotal Items ItemSpec EntityProps EntityKeys.
Open Scope N_scope.

Lemma of_num (fl : bool) v : v < two64 -> of_le (if fl then rev (num W64 fl v) else num W64 fl v) = v.
Proof.
  intros H. unfold num, stored. destruct fl; rewrite ?rev_involutive; apply of_le_le_small; exact H.
Qed.

Lemma block_length_encode fl t key v post :
  cval_ok t v -> len key <= 40 -> len (encode fl t key v) < two64 ->
  block_length fl (encode fl t key v ++ post) = Some (len (encode fl t key v)).
Proof.
  intros Hv Hk Hs. rewrite encode_form in *. pose proof (large_byte t (cval_ctype v)) as L.
  pose proof (type_byte_lt t (cval_ctype v)) as Hb.
  destruct (large t (cval_ctype v)) eqn:EL.
  - rewrite len_lblock in *. unfold large_block. cbn [app block_length]. rewrite b2n_n2b_small by exact Hb.
    destruct (N.ltb_spec (type_byte t (cval_ctype v)) 0x40) as [X|_]; [symmetry in L; apply N.leb_le in L; lia|].
    rewrite <- app_assoc.
    match goal with |- context [num W64 fl ?n ++ ?r] => set (m := n); set (rr := r) end.
    assert (Hl : len (num W64 fl m ++ rr) = 8 + len rr) by (rewrite len_app, len_num; reflexivity).
    rewrite Hl. destruct (N.ltb_spec (8 + len rr) 8) as [X|_]; [lia|].
    replace (take 8 (num W64 fl m ++ rr)) with (num W64 fl m).
    + rewrite of_num by (unfold m; lia). f_equal. unfold m. lia.
    + symmetry. apply take_app_exact. rewrite len_num. reflexivity.
  - pose proof (small_payload fl t v Hv EL) as Hp. unfold small_block. cbn [app block_length].
    rewrite !b2n_n2b_small by lia.
    destruct (N.ltb_spec (type_byte t (cval_ctype v)) 0x40) as [_|X]; [|symmetry in L; apply N.leb_gt in L; lia].
    f_equal. rewrite !len_cons, len_app. lia.
Qed.

Lemma encode_content fl t key v w : content v = content w -> encode fl t key v = encode fl t key w.
Proof.
  intros H. destruct v as [v|o|l|o|l ix|o]; destruct w as [w|p|m|p|m jx|p]; cbn [content encode] in *; try discriminate H; congruence.
Qed.

Lemma room_two64 init lim n : room init lim n -> n < two64.
Proof. intros (A & B & C & D). unfold two64 in *. lia. Qed.

Lemma t_roundtrip init lim fl before t key v :
  Forall item_ok before -> item_ok (Item t key v) ->
  room init lim (len (items_image fl before) + len (encode fl t key v)) ->
  exists s1 s2, written init lim fl before t key v s1 s2 /\
    forall e dest post, cval_ok t dest -> cval_ctype dest = cval_ctype v ->
      read_room e (ws_pos s2 - ws_pos s1) (ws_pos s2 + len post) ->
      er_read e t key dest (RS (ws_data s2 ++ post) (ws_pos s1) fl)
      = Done (true, delivered t dest v, RS (ws_data s2 ++ post) (ws_pos s2) fl).
Proof.
  intros Hb Hi Hr. destruct (written_exists init lim fl before t key v Hb Hi Hr) as (s1 & s2 & Hw & _).
  exists s1, s2. split; [exact Hw|]. intros e dest post Hd Hc Hrr. eapply item_roundtrip; eassumption.
Qed.

Lemma t_single init lim fl before t key v :
  Forall item_ok before -> item_ok (Item t key v) -> ~ is_array v ->
  room init lim (len (items_image fl before) + len (encode fl t key v)) ->
  exists s1 s2, written init lim fl before t key v s1 s2 /\
    forall e dest post, cval_ok t dest -> cval_ctype dest = cval_ctype v ->
      read_room e (ws_pos s2 - ws_pos s1) (ws_pos s2 + len post) ->
      er_read e t key dest (RS (ws_data s2 ++ post) (ws_pos s1) fl)
      = Done (true, v, RS (ws_data s2 ++ post) (ws_pos s2) fl).
Proof.
  intros Hb Hi Ha Hr. destruct (t_roundtrip init lim fl before t key v Hb Hi Hr) as (s1 & s2 & Hw & H).
  exists s1, s2. split; [exact Hw|]. intros e dest post Hd Hc Hrr. rewrite H by assumption.
  rewrite replaced_delivered; [reflexivity| |exact Hc].
  destruct v; cbn in Ha; try tauto; destruct dest; try discriminate Hc; destruct t; exact I.
Qed.

Lemma t_array init lim fl before t key v :
  Forall item_ok before -> item_ok (Item t key v) -> is_array v ->
  room init lim (len (items_image fl before) + len (encode fl t key v)) ->
  exists s1 s2, written init lim fl before t key v s1 s2 /\
    forall e dest post, cval_ok t dest -> cval_ctype dest = cval_ctype v -> replaced t dest ->
      read_room e (ws_pos s2 - ws_pos s1) (ws_pos s2 + len post) ->
      er_read e t key dest (RS (ws_data s2 ++ post) (ws_pos s1) fl)
      = Done (true, v, RS (ws_data s2 ++ post) (ws_pos s2) fl).
Proof.
  intros Hb Hi Ha Hr. destruct (t_roundtrip init lim fl before t key v Hb Hi Hr) as (s1 & s2 & Hw & H).
  exists s1, s2. split; [exact Hw|]. intros e dest post Hd Hc Hre Hrr. rewrite H by assumption.
  rewrite replaced_delivered by assumption. reflexivity.
Qed.

Lemma t_content init lim fl before t key v w s1 s2 e dest post :
  Forall item_ok before -> item_ok (Item t key v) -> cval_ok t w -> content w = content v ->
  room init lim (len (items_image fl before) + len (encode fl t key v)) ->
  written init lim fl before t key v s1 s2 ->
  cval_ok t dest -> cval_ctype dest = cval_ctype w ->
  read_room e (ws_pos s2 - ws_pos s1) (ws_pos s2 + len post) ->
  er_read e t key dest (RS (ws_data s2 ++ post) (ws_pos s1) fl)
  = Done (true, delivered t dest w, RS (ws_data s2 ++ post) (ws_pos s2) fl).
Proof.
  intros Hb Hi Hw' Hcon Hr Hw Hd Hc (R1 & R2).
  destruct (written_data _ _ _ _ _ _ _ _ _ Hb Hi Hr Hw) as (A & B & C & D).
  rewrite D, C in *. rewrite B in *. rewrite len_app in R1, R2. rewrite rs_at_app, rs_at_mid.
  destruct Hi as (Hv & Hk). rewrite <- (encode_content fl t key w v Hcon) in *.
  apply er_read_delivered; try assumption; lia.
Qed.

Lemma t_absent init lim fl before t key v s1 s2 e dest post :
  Forall item_ok before -> item_ok (Item t key v) -> is_null v ->
  room init lim (len (items_image fl before) + len (encode fl t key v)) ->
  written init lim fl before t key v s1 s2 ->
  cval_ok t dest -> ~ is_optional dest -> ws_pos s2 + len post < two64 ->
  exists d s', er_read e t key dest (RS (ws_data s2 ++ post) (ws_pos s1) fl) = Done (false, d, s').
Proof.
  intros Hb Hi Hn Hr Hw Hd Ho R2.
  destruct (written_data _ _ _ _ _ _ _ _ _ Hb Hi Hr Hw) as (A & B & C & D).
  rewrite D, C in *. rewrite B in *. rewrite len_app in R2. rewrite rs_at_mid.
  destruct Hi as (Hv & Hk). apply absent_rejected; assumption.
Qed.

Lemma t_delimited init lim fl before t key v s1 s2 :
  Forall item_ok before -> item_ok (Item t key v) ->
  room init lim (len (items_image fl before) + len (encode fl t key v)) ->
  written init lim fl before t key v s1 s2 ->
  exists blk, ws_data s2 = ws_data s1 ++ blk /\ ws_pos s2 = ws_pos s1 + len blk /\ blk = encode fl t key v /\
    forall post, block_length fl (blk ++ post) = Some (len blk).
Proof.
  intros Hb Hi Hr Hw. destruct (written_data _ _ _ _ _ _ _ _ _ Hb Hi Hr Hw) as (A & B & C & D).
  exists (encode fl t key v). split; [exact C|]. split; [rewrite D, C, len_app, B; reflexivity|]. split; [reflexivity|].
  intros post. destruct Hi as (Hv & Hk). apply block_length_encode; try assumption.
  apply room_two64 in Hr. lia.
Qed.

Lemma skip_items fl : forall l post, Forall item_ok l -> len (items_image fl l) < two64 ->
  skip_blocks fl (length l) (items_image fl l ++ post) = Some post.
Proof.
  induction l as [|i l IH]; intros post Hok Hs; [reflexivity|].
  inversion Hok as [|i' l' (Hv & Hk) Hl]; subst. unfold items_image in *. cbn [flat_map length skip_blocks] in *.
  rewrite len_app in Hs. rewrite <- app_assoc, block_length_encode by (try assumption; lia).
  rewrite drop_len_app. apply IH; [assumption|lia].
Qed.

Lemma t_skip init lim fl l s0 s post :
  Forall item_ok l -> room init lim (len (items_image fl l)) ->
  fresh init lim fl = Done s0 -> write_all l s0 = Done (true, s) ->
  skip_blocks fl (length l) (ws_data s ++ post) = Some post.
Proof.
  intros Hok Hr E0 E. pose proof (room_two64 _ _ _ Hr) as H64. destruct Hr as (R1 & R2 & R3 & R4).
  destruct (fresh_at init lim fl R1 R2 R3) as (s0' & E0' & H0). rewrite E0 in E0'. inversion E0'; subst s0'.
  destruct (write_all_at l s0 [] fl lim H0 Hok) as (s' & E' & H); [rewrite len_nil; lia|]. rewrite E in E'. inversion E'; subst s'.
  cbn [app] in H. rewrite (ws_at_data _ _ _ _ H). apply skip_items; assumption.
Qed.

Lemma t_items init lim fl ws rs e :
  Forall item_ok ws -> Forall2 mirrors ws rs -> Forall (fun r => replaced (i_type r) (i_val r)) rs ->
  room init lim (len (items_image fl ws)) -> 4 * len (items_image fl ws) <= e_lim e ->
  exists s0 s, fresh init lim fl = Done s0 /\ write_all ws s0 = Done (true, s) /\
    read_all e rs (RS (ws_data s) 0 fl) = Done (true, map i_val ws, RS (ws_data s) (ws_pos s) fl).
Proof.
  intros Hok Hm Hrep (R1 & R2 & R3 & R4) Hal.
  destruct (fresh_at init lim fl R1 R2 R3) as (s0 & E0 & H0).
  destruct (write_all_at ws s0 [] fl lim H0 Hok) as (s & E & H); [rewrite len_nil; lia|]. cbn [app] in H.
  exists s0, s. split; [exact E0|]. split; [exact E|]. rewrite (ws_at_data _ _ _ _ H), (ws_at_pos _ _ _ _ H).
  pose proof (read_all_ok e fl ws rs [] [] Hok Hm Hal) as Q. rewrite !len_nil in Q.
  unfold rs_at in Q. cbn [app] in Q. rewrite !app_nil_r in Q. rewrite combine_delivered in Q by assumption. apply Q. lia.
Qed.

(** ** Arbitrary streams *)
Lemma rs_split data pos fl : pos <= len data -> RS data pos fl = rs_at (take pos data) (drop pos data) fl.
Proof. intros H. unfold rs_at. rewrite take_drop, len_take. f_equal. lia. Qed.

Lemma t_inside e t key dest data pos fl :
  pos <= len data -> len data < 2^62 -> e_lim e < 2^60 -> 0 < len key -> len key <= 40 -> cval_ok t dest ->
  match er_read e t key dest (RS data pos fl) with
  | Done (ok, v, s') =>
      cval_ctype v = cval_ctype dest /\
      exists n, pos + n <= len data /\ s' = RS data (pos + n) fl /\
        (ok = true -> exists w, accepts (pos + n =? len data) fl t key (take n (drop pos data)) w /\ v = delivered t dest w)
  | Throw => is_array dest \/ t = TString
  | Undef => is_array dest /\ multi_component t
  end.
Proof.
  intros Hp Hs He Hk0 Hk Hd. rewrite rs_split by exact Hp.
  pose proof (er_read_gen e t key dest (take pos data) (drop pos data) fl Hk Hk0) as Q.
  assert (Hl : len (take pos data) = pos) by (rewrite len_take; lia).
  assert (Hl2 : len (drop pos data) = len data - pos) by apply len_drop.
  specialize (Q ltac:(unfold small_rs, lim62; lia) ltac:(exact He) Hd).
  destruct (er_read e t key dest _) as [[[ok v] s']| |]; cbn [wpu] in Q; [|exact Q|exact Q].
  destruct Q as ((a & b & Ea & ->) & Hc & Hok). split; [exact Hc|].
  assert (Hab : len a + len b = len data - pos) by (rewrite <- Hl2, Ea, len_app; reflexivity).
  exists (len a). split; [lia|]. split.
  - unfold rs_at. rewrite <- app_assoc, <- Ea, take_drop. f_equal. rewrite len_app. lia.
  - intros Ht. destruct (Hok Ht) as (bs & rest & E1 & E2 & w & Hw & ->).
    apply rs_at_inj in E2. destruct E2 as (E2 & E3). apply app_inv_head in E2. subst bs rest.
    exists w. split; [|reflexivity]. rewrite Ea, take_len_app.
    replace (pos + len a =? len data) with (match b with [] => true | _ :: _ => false end); [exact Hw|].
    destruct b; symmetry; [apply N.eqb_eq; rewrite len_nil in Hab; lia|apply N.eqb_neq; rewrite len_cons in Hab; lia].
Qed.

Lemma t_wrong init lim fl before t key v s1 s2 e t' key' dest post r s' :
  Forall item_ok before -> item_ok (Item t key v) ->
  room init lim (len (items_image fl before) + len (encode fl t key v)) ->
  written init lim fl before t key v s1 s2 ->
  cval_ok t' dest -> 0 < len key' -> len key' <= 40 -> e_lim e < 2^60 -> ws_pos s2 + len post < 2^62 ->
  er_read e t' key' dest (RS (ws_data s2 ++ post) (ws_pos s1) fl) = Done (true, r, s') ->
  type_byte t' (cval_ctype dest) = type_byte t (cval_ctype v) /\
  (large t (cval_ctype v) = true \/ len key' = len key -> key' = key) /\
  (key' = key -> ~ is_null v -> same_layout t' t /\ indexed (cval_ctype dest) = indexed (cval_ctype v)).
Proof.
  intros Hb Hi Hr Hw Hd Hk0' Hk' He Hs E.
  destruct (written_data _ _ _ _ _ _ _ _ _ Hb Hi Hr Hw) as (A & B & C & D). destruct Hi as (Hv & Hk). cbn [i_type i_key i_val] in *.
  rewrite D, C in *. rewrite B in *. rewrite len_app in Hs. rewrite rs_at_mid in E.
  pose proof (er_read_gen e t' key' dest (ws_data s1) (encode fl t key v ++ post) fl Hk' Hk0') as Q.
  specialize (Q ltac:(unfold small_rs, lim62; rewrite len_app; lia) ltac:(exact He) Hd).
  rewrite E in Q. cbn [wpu read_post] in Q. destruct Q as (_ & Hc & Hok).
  destruct (Hok eq_refl) as (bs & rest & E1 & _ & w & Hacc & Hr').
  assert (Hcw : cval_ctype w = cval_ctype dest).
  { rewrite <- Hc, Hr'. destruct t'; try reflexivity; destruct dest, w; try reflexivity. }
  assert (Heos : (match rest with [] => true | _ :: _ => false end) = true -> rest = []) by (destruct rest; [reflexivity|discriminate]).
  destruct (success_same_block fl t key v t' key' bs rest post w _ Hv Hk Hk0' Hk' ltac:(rewrite len_app; unfold two64; lia) E1
     Heos Hacc) as (P1 & P2 & P3 & P4).
  rewrite Hcw in *. split; [exact P1|]. split; [intros [X|X]; auto|].
  intros X Y. destruct (P4 X Y) as (_ & Z1 & Z2). split; assumption.
Qed.

(** ** Type ids *)
Lemma t_ids t t' : dt_id t = dt_id t' -> t = t'.
Proof.
  destruct t as [|[]|[]|[]|[] []|[] []|[] []|[] []|[]| | | | |]; destruct t' as [|[]|[]|[]|[] []|[] []|[] []|[] []|[]| | | | |];
    intros H; try reflexivity; vm_compute in H; discriminate H.
Qed.
Lemma t_ids_range t : 0 < dt_id t /\ dt_id t < 2^16.
Proof. destruct t as [|[]|[]|[]|[] []|[] []|[] []|[] []|[]| | | | |]; vm_compute; auto. Qed.
Lemma t_cids c c' : ct_id c = ct_id c' -> c = c'.
Proof. destruct c, c'; intros H; try reflexivity; discriminate H. Qed.
Lemma t_all t : In t all_dtypes.
Proof.
  destruct t as [|[]|[]|[]|[] []|[] []|[] []|[] []|[]| | | | |]; cbn; tauto.
Qed.
