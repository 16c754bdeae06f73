(** * Reading with the wrong byte order. Proofs. *)
From Verif Require Import Base Bytes BytesFacts Values Streams FileSpec ReadSpec StreamFacts StreamProps Types Format
  Accept EntityWriter EntityReader EntityWriterFacts PackFacts ArrayWriterFacts EntityReaderFacts EntitySafety ArraySafety
  ReadTotal Items ItemSpec EntityProps Sections Documents DocSpec SectionFacts SectionReadFacts SectionTheorems CodecFacts
  WrongOrderSpec.
Open Scope N_scope.

(** ** The size field of a large block *)
Lemma rev_word bs : 0 < bs -> bs < 4294967295 ->
  exists v, num W64 true bs = num W64 false v /\ num W64 false bs = num W64 true v /\
    4294967296 <= v /\ v <= 4294967294 * 4294967296.
Proof.
  intros H0 H1. exists (of_le (rev (le 8 bs))).
  assert (HL : length (rev (le 8 bs)) = 8%nat) by (rewrite rev_length; apply le_length).
  unfold num, stored. cbn [wbytes]. change (N.to_nat 8) with 8%nat.
  rewrite (le_of_le_n 8) by exact HL.
  split; [reflexivity|]. split; [symmetry; apply rev_involutive|].
  change 8%nat with (4 + 4)%nat. rewrite le_app. change (256 ^ N.of_nat 4) with 4294967296.
  rewrite (N.div_small bs) by lia. rewrite rev_app_distr, of_le_app.
  change (rev (le 4 0)) with [x00;x00;x00;x00]. change (of_le [x00;x00;x00;x00]) with 0.
  change (256 ^ len [x00;x00;x00;x00]) with 4294967296.
  set (x := of_le (rev (le 4 bs))).
  assert (Hb : x < 4294967296).
  { unfold x. pose proof (of_le_bound (rev (le 4 bs))) as Q. unfold len in Q. rewrite rev_length, le_length in Q. exact Q. }
  assert (Hinv : forall y, x = y -> y < 4294967296 -> bs = of_le (rev (le 4 y))).
  { intros y E Hy. rewrite <- E. unfold x. rewrite (le_of_le_n 4) by (rewrite rev_length; apply le_length).
    rewrite rev_involutive. rewrite of_le_le_small; [reflexivity|]. change (256 ^ N.of_nat 4) with 4294967296. lia. }
  assert (N0 : x <> 0). { intros E. apply Hinv in E; [|lia]. change (of_le (rev (le 4 0))) with 0 in E. lia. }
  assert (N1 : x <> 4294967295). { intros E. apply Hinv in E; [|lia]. change (of_le (rev (le 4 4294967295))) with 4294967295 in E. lia. }
  lia.
Qed.
Lemma rev_num fl bs : 0 < bs -> bs < 4294967295 ->
  exists v, num W64 fl bs = num W64 (negb fl) v /\ 4294967296 <= v /\ v <= 4294967294 * 4294967296.
Proof. intros H0 H1. destruct (rev_word bs H0 H1) as (v & A & B & C). exists v. destruct fl; cbn [negb]; auto. Qed.

(** ** A large block is refused, whatever is asked for *)
Lemma begin_flip e vt vt' bs key' pre rest fl :
  0 < bs -> bs <= len rest -> vt < 256 -> len pre + 9 + len rest < 4294967296 ->
  exists s', begin_read e vt' key' (rs_at pre (n2b vt :: num W64 fl bs ++ rest) (negb fl)) = Done (0, s').
Proof.
  intros H0 H1 Hv H2. unfold begin_read.
  rewrite rs_u8n by (rewrite ?len_app, ?len_num; cbn [wbytes]; unfold two64; lia). cbn [bind].
  destruct (negb (vt =? vt')); [eauto|].
  destruct (rev_num fl bs) as (v & E & Hlo & Hhi); [lia|lia|]. rewrite E.
  rewrite rs_u64n by (rewrite ?len_app; change (len [n2b vt]) with 1; unfold two64; lia).
  cbn [bind]. rewrite rs_at_size, rs_at_pos, !len_app, len_num. cbn [wbytes]. change (len [n2b vt]) with 1.
  rewrite add64_small by (unfold two64; lia).
  destruct (N.ltb_spec (len pre + 1 + 8 + len rest) (len pre + 1 + 8 + v)) as [_|X]; [eauto|lia].
Qed.

Lemma pod_flip e vt vt' k n key' eo dest pre rest fl :
  0x40 <= vt -> vt < 256 -> vt' < 0x40 -> len pre + 1 + len rest < two64 ->
  exists s', read_pod e vt' k n key' eo dest (rs_at pre (n2b vt :: rest) fl) = Done (SFail, dest, s').
Proof.
  intros Hv Hv2 Hv' Hs. unfold read_pod. rewrite rs_u8n by assumption. cbn [bind].
  destruct (N.eqb_spec vt vt') as [->|_]; [lia|]. cbn [negb]. eauto.
Qed.

Lemma vt_small t : t <> TString -> vt_single t < 0x40.
Proof. destruct t as [|[]|[]|[]|[] []|[] []|[] []|[] []|[]| | | | |]; cbn; intros; try lia; congruence. Qed.
Lemma dshape_string t : dshape t = ShString <-> t = TString.
Proof. split; [destruct t; cbn; congruence|intros ->; reflexivity]. Qed.

(** The first block of the stream is a large one written with the other byte order. *)
Definition foreign (fl : bool) (total : N) (pre post : list byte) : Prop :=
  exists vt bs rest, post = n2b vt :: num W64 (negb fl) bs ++ rest /\ 0x40 <= vt /\ vt < 256 /\ 0 < bs /\ bs <= len rest /\
    len pre + len post = total /\ total < 4294967296.

Lemma single_flip fl total pre post e t key' eo dest : foreign fl total pre post ->
  exists v s', read_single e (vt_single t) (dshape t) key' eo dest (rs_at pre post fl) = Done (SFail, v, s').
Proof.
  intros (vt & bs & rest & -> & V1 & V2 & B0 & B1 & Ht & Hlt). subst total.
  rewrite len_cons, len_app, len_num in Hlt. cbn [wbytes] in Hlt.
  unfold read_single. destruct (dshape t) as [| |k n] eqn:Ed.
  - unfold read_bool. destruct (pod_flip e vt (vt_single t) (KW W8) 1 key' eo (junk e 1) pre (num W64 (negb fl) bs ++ rest) fl) as (s' & E);
      [assumption|assumption|apply vt_small; destruct t; discriminate|rewrite len_app, len_num; cbn [wbytes]; unfold two64; lia|].
    rewrite E. cbn [bind]. eauto.
  - unfold read_string.
    destruct (begin_flip e vt (vt_single t) bs key' pre rest (negb fl)) as (s' & E); [lia|lia|lia|lia|].
    rewrite negb_involutive in E. rewrite E. cbn [bind]. change (0 =? 0) with true. cbn [bind]. eauto.
  - destruct (pod_flip e vt (vt_single t) k n key' eo (pod_image dest) pre (num W64 (negb fl) bs ++ rest) fl) as (s' & E);
      [assumption|assumption|apply vt_small; destruct t; discriminate|rewrite len_app, len_num; cbn [wbytes]; unfold two64; lia|].
    rewrite E. cbn [bind]. eauto.
Qed.
Lemma array_flip fl total pre post e t key' eo dest ix : foreign fl total pre post ->
  exists l i s', read_array e (vt_array t) (dshape t) key' eo dest ix (rs_at pre post fl) = Done (SFail, l, i, s').
Proof.
  intros (vt & bs & rest & -> & V1 & V2 & B0 & B1 & Ht & Hlt). subst total.
  rewrite len_cons, len_app, len_num in Hlt. cbn [wbytes] in Hlt.
  unfold read_array. destruct (begin_flip e vt (vt_array t) bs key' pre rest (negb fl)) as (s' & E); [lia|lia|lia|lia|].
  rewrite negb_involutive in E. rewrite E. cbn [bind]. change (0 =? 0) with true. cbn iota. eauto.
Qed.

Lemma plain_flip fl total pre post e t key' dest : foreign fl total pre post ->
  exists v s', er_read_plain e t key' dest (rs_at pre post fl) = Done (false, v, s').
Proof.
  intros F. unfold er_read_plain. destruct dest as [v|o|l|o|l ix|o].
  - destruct (single_flip fl total pre post e t key' false v F) as (x & s' & ->). cbn. eauto.
  - destruct (single_flip fl total pre post e t key' true (val_default (dshape t)) F) as (x & s' & ->). cbn. eauto.
  - destruct (array_flip fl total pre post e t key' false l None F) as (x & i & s' & ->). cbn. eauto.
  - destruct (array_flip fl total pre post e t key' true [] None F) as (x & i & s' & ->). cbn. eauto.
  - destruct (array_flip fl total pre post e t key' false l (Some ix) F) as (x & i & s' & ->). cbn. eauto.
  - destruct (array_flip fl total pre post e t key' true [] (Some []) F) as (x & i & s' & ->). cbn. eauto.
Qed.
Lemma er_flip fl total pre post e t key' dest : foreign fl total pre post ->
  exists v s', er_read e t key' dest (rs_at pre post fl) = Done (false, v, s').
Proof.
  intros F. unfold er_read, er_read_override.
  destruct t; try (apply (plain_flip fl total); assumption).
  - destruct (plain_flip fl total pre post e TUuid key' (cval_default TUuid (cval_ctype dest)) F) as (v & s' & ->). cbn. eauto.
  - destruct (plain_flip fl total pre post e THash key' (cval_default THash (cval_ctype dest)) F) as (v & s' & ->). cbn. eauto.
Qed.

Lemma section_flip fl total pre post e h key' null_ok above f st : foreign fl total pre post ->
  rready h above f st -> r_stream st = rs_at pre post fl ->
  exists st', r_begin e h key' null_ok st = Done (None, false, st').
Proof.
  intros (vt & bs & rest & -> & V1 & V2 & B0 & B1 & Ht & Hlt) R Es. subst total.
  rewrite len_cons, len_app, len_num in Hlt. cbn [wbytes] in Hlt.
  destruct R as (E & Hid & Hn & F & I). unfold r_begin. rewrite E, split_at_mid by assumption. rewrite Es.
  destruct (begin_flip e vt vt_subsection bs key' pre rest (negb fl)) as (s' & E'); [lia|lia|lia|lia|].
  rewrite negb_involutive in E'. rewrite E'. cbn [bind]. change (0 =? 0) with true. cbn iota. eauto.
Qed.
Lemma arr_flip fl total pre post e h key' null_ok ix above f st : foreign fl total pre post ->
  rready h above f st -> r_stream st = rs_at pre post fl ->
  exists st', r_begin_arr e h key' null_ok ix st = Done (None, 0, false, ix, st').
Proof.
  intros (vt & bs & rest & -> & V1 & V2 & B0 & B1 & Ht & Hlt) R Es. subst total.
  rewrite len_cons, len_app, len_num in Hlt. cbn [wbytes] in Hlt.
  destruct R as (E & Hid & Hn & F & I). unfold r_begin_arr. rewrite E, split_at_mid by assumption. rewrite Es.
  destruct (begin_flip e vt vt_array_subsection bs key' pre rest (negb fl)) as (s' & E'); [lia|lia|lia|lia|].
  rewrite negb_involutive in E'. rewrite E'. cbn [bind]. change (0 =? 0) with true. cbn iota. eauto.
Qed.

(** Any node expected. *)
Lemma node_flip fl total pre post e h r above f st : foreign fl total pre post ->
  rready h above f st -> r_stream st = rs_at pre post fl ->
  exists n' st', read_node e h r st = Done (false, n', st').
Proof.
  intros F R Es. destruct r as [i|key body|key|key ix elems|key]; cbn [read_node].
  - unfold r_read. pose proof R as (E & Hid & Hn & Fc & Ix). rewrite E, split_at_mid by assumption. rewrite Es.
    destruct (er_flip fl total pre post e (i_type i) (i_key i) (i_val i) F) as (v & s' & ->). cbn. eauto.

  - destruct (section_flip fl total pre post e h key true above f st F R Es) as (st' & ->). cbn. eauto.
  - destruct (section_flip fl total pre post e h key true above f st F R Es) as (st' & ->). cbn. eauto.
  - destruct (arr_flip fl total pre post e h key true (match ix with Some _ => Some [] | None => None end) above f st F R Es) as (st' & ->).
    cbn. eauto.
  - destruct (arr_flip fl total pre post e h key true None above f st F R Es) as (st' & ->). cbn. eauto.
Qed.

(** ** Small blocks *)
Lemma swap_words_rev w : forall l, Forall (fun x => len x = wbytes w) l ->
  swap_words w (length l) (concat l) = flat_map (@rev byte) l.
Proof. intros l H. rewrite flat_map_concat_map. apply c03_swap_reverses_words. exact H. Qed.

Lemma element_flip w n fl img : len img = n * wbytes w ->
  element_bytes (KW w) n fl img = element_bytes (KW w) n (negb fl) (flat_map (@rev byte) (chunks (N.to_nat n) (wbytes w) img)).
Proof.
  intros H. destruct (chunks_ok (N.to_nat n) (wbytes w) img) as (A & B & C); [lia|].
  assert (E : flat_map (@rev byte) (chunks (N.to_nat n) (wbytes w) img) = swap_words w (N.to_nat n) img).
  { rewrite <- (swap_words_rev w _ A). rewrite B, C. reflexivity. }
  rewrite E. rewrite !element_bytes_wire; [|rewrite len_swap_words by lia; cbn [ksize]; exact H|cbn [ksize]; exact H].
  cbn [wire]. destruct fl; cbn [negb]; [reflexivity|]. symmetry. apply swap_words_invol. lia.
Qed.
Lemma element_same k n fl fl' img : match k with KW _ => False | _ => True end -> len img = n * ksize k ->
  element_bytes k n fl img = element_bytes k n fl' img.
Proof. intros K H. rewrite !element_bytes_wire by exact H. destruct k; [contradiction|reflexivity|reflexivity]. Qed.

Lemma swapped_val_ok t v : val_ok t v -> val_ok t (swapped_val t v).
Proof.
  unfold val_ok, swapped_val. destruct (dshape t) as [| |[w| |] n]; destruct v; cbn [shape_ok]; auto.
  intros H. destruct (chunks_ok (N.to_nat n) (wbytes w) img) as (A & B & C); [cbn [ksize] in H; lia|].
  rewrite <- (swap_words_rev w _ A). rewrite B, C, len_swap_words by (cbn [ksize] in H; lia). exact H.
Qed.
Lemma payload_flip t fl v k n : val_ok t v -> dshape t = ShPod k n ->
  element_bytes k n fl (the_image v) = element_bytes k n (negb fl) (the_image (swapped_val t v)).
Proof.
  intros H E. unfold val_ok in H. unfold swapped_val. rewrite E in *. destruct v; cbn [shape_ok] in H; try contradiction.
  destruct k as [w| |]; cbn [the_image].
  - apply element_flip. exact H.
  - apply element_same; [exact I|exact H].
  - apply element_same; [exact I|exact H].
Qed.

Lemma single_order t fl key v : t <> TString -> match v with Some x => val_ok t x | None => True end ->
  single_block fl t key v = single_block (negb fl) t key (option_map (swapped_val t) v).
Proof.
  intros Ht Hv. unfold single_block. destruct (dshape t) as [| |k n] eqn:Ed.
  - destruct v as [x|]; [|reflexivity]. cbn [option_map]. unfold swapped_val. rewrite Ed. reflexivity.
  - apply dshape_string in Ed. contradiction.
  - destruct v as [x|]; [|reflexivity]. cbn [option_map]. rewrite (payload_flip t fl x k n) by assumption. reflexivity.
Qed.

Lemma encode_order i fl : item_ok i -> plain i ->
  encode fl (i_type i) (i_key i) (i_val i) = encode (negb fl) (i_type i) (i_key i) (swapped (i_type i) (i_val i)).
Proof.
  intros (Hv & Hk) P. unfold plain, large in P. destruct i as [t key c]. cbn [i_type i_key i_val] in *.
  destruct c as [v|o|l|o|l ix|o]; cbn [cval_ctype] in P; try discriminate; (assert (Ht : t <> TString) by (intros ->; discriminate)).
  - cbn [encode swapped cval_ok] in *. apply (single_order t fl key (Some v)); assumption.
  - destruct o as [v|]; cbn [encode swapped cval_ok] in *.
    + apply (single_order t fl key (Some v)); assumption.
    + apply (single_order t fl key None); assumption.
Qed.
Lemma swapped_item_ok t key c : item_ok (Item t key c) -> item_ok (Item t key (swapped t c)).
Proof.
  intros (Hv & Hk). split; [|exact Hk]. cbn [i_type i_val] in *.
  destruct c as [v|[v|]|l|o|l ix|o]; cbn [swapped cval_ok] in *; try exact Hv; apply swapped_val_ok; exact Hv.
Qed.
Lemma swapped_ctype t c : cval_ctype (swapped t c) = cval_ctype c.
Proof. destruct c as [v|[v|]|l|o|l ix|o]; reflexivity. Qed.

(** A large block. *)
Lemma large_foreign vt fl key payload pre rest : 0x40 <= vt -> vt < 256 ->
  len pre + len (large_block (negb fl) vt key payload ++ rest) < 4294967296 ->
  foreign fl (len pre + len (large_block (negb fl) vt key payload ++ rest)) pre (large_block (negb fl) vt key payload ++ rest).
Proof.
  intros V1 V2 H. unfold foreign. exists vt, (1 + len key + len payload), (n2b (len key) :: key ++ payload ++ rest).
  split; [unfold large_block; cbn [app]; rewrite <- !app_assoc; cbn [app]; rewrite <- !app_assoc; reflexivity|].
  split; [exact V1|]. split; [exact V2|]. split; [lia|]. split; [rewrite len_cons, !len_app; lia|]. auto.
Qed.
Lemma vt_array_large t : 0x40 <= vt_array t.
Proof. destruct t as [|[]|[]|[]|[] []|[] []|[] []|[] []|[]| | | | |]; cbn; lia. Qed.

Lemma node_foreign n fl pre rest : ~ plain_node n ->
  len pre + len (node_bytes (negb fl) n ++ rest) < 4294967296 ->
  foreign fl (len pre + len (node_bytes (negb fl) n ++ rest)) pre (node_bytes (negb fl) n ++ rest).
Proof.
  destruct n as [i|key body|key|key ix elems|key]; cbn [plain_node node_bytes]; intros P H.
  2-5: apply large_foreign; [lia|lia|exact H].
  unfold plain, large in P. destruct i as [t key c]. cbn [i_type i_key i_val] in *.
  destruct c as [v|o|l|o|l ix|o]; cbn [encode cval_ctype] in *;
    try (apply large_foreign; [apply vt_array_large|apply vt_array_lt|exact H]).
  - destruct t; try (exfalso; apply P; reflexivity). unfold single_block in *. cbn [dshape] in *. apply large_foreign; [cbn; lia|cbn; lia|exact H].
  - destruct t; try (exfalso; apply P; reflexivity). unfold single_block in *. cbn [dshape] in *. apply large_foreign; [cbn; lia|cbn; lia|exact H].
Qed.

(** ** Documents *)
Lemma plain_dec n : {plain_node n} + {~ plain_node n}.
Proof.
  destruct n as [i| | | |]; cbn [plain_node]; try (right; intros []; fail).
  unfold plain. destruct (large _ _); [right; discriminate|left; reflexivity].
Qed.

(** The reading calls mirror the leading small items of the document; what follows the first large
    block is arbitrary, but there is a call for that block. *)
Fixpoint starts_like (w r : nodes) : Prop :=
  match w, r with
  | Nil, Nil => True
  | Cons n l, Cons n' l' => (plain_node n -> node_mirrors n n' /\ starts_like l l')
  | _, _ => False
  end.
Lemma mirror_starts : forall w r, nodes_mirror w r -> starts_like w r.
Proof.
  induction w as [|n l IH]; intros [|n' l']; cbn [nodes_mirror starts_like]; auto. intros (A & B) _. auto.
Qed.

Lemma plain_not_string t c : large t (cval_ctype c) = false -> replaced t c.
Proof. destruct c, t; cbn; intros; try discriminate; auto. Qed.

Lemma item_flip i j fl e h above f st pre post :
  item_ok i -> plain i -> mirrors i j -> len pre + len (encode (negb fl) (i_type i) (i_key i) (i_val i) ++ post) < 4294967296 ->
  4 * len (encode (negb fl) (i_type i) (i_key i) (i_val i)) <= e_lim e ->
  rready h above f st -> r_stream st = rs_at pre (encode (negb fl) (i_type i) (i_key i) (i_val i) ++ post) fl ->
  exists st', read_node e h (NItem j) st = Done (true, swapped_node (NItem i), st') /\
    rpost st st' (rs_at (pre ++ encode (negb fl) (i_type i) (i_key i) (i_val i)) post fl).
Proof.
  intros Ok P (M1 & M2 & M3 & M4) Hs Hal R Es. destruct i as [t key c], j as [t' key' c']. cbn [i_type i_key i_val] in *. subst t' key'.
  pose proof (encode_order (Item t key c) (negb fl) Ok P) as EE. cbn [i_type i_key i_val] in EE. rewrite negb_involutive in EE.
  assert (Hr : replaced t c'). { apply plain_not_string. unfold plain in P. cbn in P. rewrite M3. exact P. }
  destruct (reads_item t key (swapped t c) c') with (e := e) (h := h) (above := above) (f := f) (st := st) (pre := pre) (post := post) (fl := fl)
    as (st' & E' & P'); try assumption.
  - apply swapped_item_ok. exact Ok.
  - rewrite swapped_ctype. exact M3.
  - rewrite <- EE. exact Es.
  - rewrite <- EE. exact Hal.
  - rewrite <- EE. rewrite len_app in Hs. unfold two64. lia.
  - exists st'. cbn [read_node]. cbn [i_type i_key i_val]. rewrite E'. cbn [bind swapped_node i_type i_key i_val].
    split; [reflexivity|]. rewrite EE. exact P'.
Qed.

Lemma doc_flip : forall w r fl e h above f st pre post,
  nodes_ok w -> starts_like w r ->
  len pre + len (nodes_bytes (negb fl) w ++ post) < 4294967296 -> 4 * len (nodes_bytes (negb fl) w) <= e_lim e ->
  rready h above f st -> r_stream st = rs_at pre (nodes_bytes (negb fl) w ++ post) fl ->
  (plain_nodes w /\ exists st', read_nodes e h r st = Done (true, swapped_nodes w, st') /\
     rpost st st' (rs_at (pre ++ nodes_bytes (negb fl) w) post fl)) \/
  (~ plain_nodes w /\ exists w' st', read_nodes e h r st = Done (false, w', st')).
Proof.
  induction w as [|n l IH]; intros [|n' l'] fl e h above f st pre post Ok S Hs Hal R Es; cbn [starts_like] in S; try contradiction.
  - left. split; [exact I|]. exists st. cbn [read_nodes nodes_bytes swapped_nodes] in *. split; [reflexivity|].
    split; [rewrite app_nil_r; exact Es|]. split; [reflexivity|lia].
  - cbn [nodes_ok nodes_bytes plain_nodes] in *. destruct Ok as (On & Ol). rewrite <- app_assoc in *.
    destruct (plain_dec n) as [P|P].
    + destruct (S P) as (M & Sl). destruct n as [i| | | |]; cbn [plain_node] in P; try contradiction.
      destruct n' as [j| | | |]; cbn [node_mirrors] in M; try contradiction. destruct M as (M & _).
      cbn [node_bytes node_ok] in *. rewrite !len_app in *.
      destruct (item_flip i j fl e h above f st pre (nodes_bytes (negb fl) l ++ post)) as (st1 & E1 & (S1 & C1 & N1)); try assumption.
      { rewrite !len_app. lia. } { lia. }
      assert (R1 : rready h above f st1) by (eapply rready_keep; eassumption).
      destruct (IH l' fl e h above f st1 (pre ++ encode (negb fl) (i_type i) (i_key i) (i_val i)) post) as [(Pl & st2 & E2 & (S2 & C2 & N2))|(Pl & w' & st2 & E2)];
        try assumption; [rewrite !len_app; lia|lia| |].
      * left. split; [split; assumption|]. exists st2. change (read_nodes e h (Cons (NItem j) l') st) with
          (do r1 <- read_node e h (NItem j) st; let '(ok, n', st1) := r1 in
           if negb ok then Done (false, Cons n' Nil, st1) else
           do r2 <- read_nodes e h l' st1; let '(ok2, r', st2) := r2 in Done (ok2, Cons n' r', st2)).
        rewrite E1. cbn [bind negb]. rewrite E2. cbn [bind]. split; [reflexivity|]. rewrite app_assoc.
        split; [exact S2|]. split; [congruence|lia].
      * right. split; [tauto|]. change (read_nodes e h (Cons (NItem j) l') st) with
          (do r1 <- read_node e h (NItem j) st; let '(ok, n', st1) := r1 in
           if negb ok then Done (false, Cons n' Nil, st1) else
           do r2 <- read_nodes e h l' st1; let '(ok2, r', st2) := r2 in Done (ok2, Cons n' r', st2)).
        rewrite E1. cbn [bind negb]. rewrite E2. cbn [bind]. eauto.
    + right. split; [tauto|].
      destruct (node_flip fl _ pre _ e h n' above f st (node_foreign n fl pre (nodes_bytes (negb fl) l ++ post) P Hs) R Es) as (n1 & st1 & E1).
      change (read_nodes e h (Cons n' l') st) with
          (do r1 <- read_node e h n' st; let '(ok, n', st1) := r1 in
           if negb ok then Done (false, Cons n' Nil, st1) else
           do r2 <- read_nodes e h l' st1; let '(ok2, r', st2) := r2 in Done (ok2, Cons n' r', st2)).
      rewrite E1. cbn [bind negb]. eauto.
Qed.
