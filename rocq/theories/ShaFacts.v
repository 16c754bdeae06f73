(** * ShaFacts: proofs about the SHA256 class. *)
From Verif Require Import Base Bytes BytesFacts Sha256 Sha256Spec ShaSpec.
Open Scope N_scope.

Definition rounds_for (n : N) : nat := S (N.to_nat (n / int_max)).

Section Facts.
Context (L : sha_lib).

Lemma loop_feeds r : forall c d n, n <= len d -> (rounds_for n <= r)%nat ->
  exists pieces, Forall (fun p => 0 < len p /\ len p <= int_max) pieces /\ concat pieces = take n d /\
    sha_loop L r c d n = Some (Done (fold_left (lib_update L) pieces c)).
Proof.
  induction r as [|r IH]; intros c d n H R; [inversion R|].
  cbn [sha_loop]. destruct (0 <? n) eqn:E.
  2:{ exists []. split; [constructor|]. apply N.ltb_ge in E. replace n with 0 by lia. auto. }
  apply N.ltb_lt in E.
  assert (Hk : exists k, (if int_max <? n then int_max else n) = k /\ 0 < k /\ k <= n /\ k <= int_max /\ (k = int_max \/ k = n)).
  { eexists. split; [reflexivity|]. destruct (int_max <? n) eqn:E2; [apply N.ltb_lt in E2|apply N.ltb_ge in E2]; unfold int_max in *; lia. }
  destruct Hk as (k & -> & K1 & K2 & K3 & K4).
  replace (k <=? len d) with true by (symmetry; apply N.leb_le; lia).
  destruct (N.eq_dec k n) as [->|NE].
  - exists [take n d]. split; [constructor; [rewrite len_take; lia|constructor]|].
    split; [cbn; apply app_nil_r|]. rewrite N.sub_diag. destruct r; reflexivity.
  - assert (k = int_max) as -> by lia.
    destruct (IH (lib_update L c (take int_max d)) (drop int_max d) (n - int_max)) as (p & P1 & P2 & P3).
    + rewrite len_drop. lia.
    + unfold rounds_for in *. assert (D : n / int_max = (n - int_max) / int_max + 1).
      { replace n with ((n - int_max) + 1 * int_max) at 1 by lia. apply N.div_add. discriminate. }
      rewrite D in R. lia.
    + exists (take int_max d :: p). split; [constructor; [rewrite len_take; lia|auto]|].
      split; [|exact P3]. cbn [concat]. rewrite P2. unfold take, drop.
      replace (N.to_nat n) with (N.to_nat int_max + N.to_nat (n - int_max))%nat by lia.
      generalize (N.to_nat int_max) (N.to_nat (n - int_max)). intros i j. clear.
      revert d. induction i as [|i IH]; intros d; cbn; auto. destruct d; cbn; [destruct j; auto|]. f_equal. apply IH.
Qed.

Lemma update_feeds a c : good_buffer a -> forall r, (rounds_for (snd a) <= r)%nat ->
  exists pieces, Forall (fun p => 0 < len p /\ len p <= int_max) pieces /\ concat pieces = bytes_meant a /\
    sha_update L r c (fst a) (snd a) = Some (Done (fold_left (lib_update L) pieces c)).
Proof.
  destruct a as ([d|], n); cbn [good_buffer bytes_meant fst snd sha_update]; intros H r R.
  - apply loop_feeds; auto.
  - subst n. exists []. split; [constructor|]. auto.
Qed.

Lemma updates_feed l : Forall good_buffer l -> exists bound, forall r, (bound <= r)%nat -> forall c,
  exists pieces, Forall (fun p => 0 < len p /\ len p <= int_max) pieces /\ concat pieces = concat (map bytes_meant l) /\
    sha_updates L r c l = Some (Done (fold_left (lib_update L) pieces c)).
Proof.
  induction 1 as [|a l A F (b & IH)].
  - exists O. intros r _ c. exists []. repeat split; constructor.
  - exists (Nat.max (rounds_for (snd a)) b). intros r R c.
    destruct (update_feeds a c A r) as (p & P1 & P2 & P3); [lia|].
    destruct (IH r ltac:(lia) (fold_left (lib_update L) p c)) as (q & Q1 & Q2 & Q3).
    exists (p ++ q). split; [apply Forall_app; auto|]. split.
    + rewrite concat_app. cbn. rewrite P2, Q2. auto.
    + destruct a as (d, n). cbn [sha_updates fst snd] in *. rewrite P3, Q3, fold_left_app. reflexivity.
Qed.

Lemma digest_ok : computes_sha256 L -> forall d n l, good_buffer (Some d, n) -> Forall good_buffer l ->
  len (take n d ++ concat (map bytes_meant l)) < 2 ^ 61 ->
  exists bound, forall r, (bound <= r)%nat ->
    exists c c', sha_new L r (Some d) n = Some (Done c) /\ sha_updates L r c l = Some (Done c') /\
      fst (sha_digest L c') = sha256 (take n d ++ concat (map bytes_meant l)).
Proof.
  intros C d n l G F B. destruct (updates_feed l F) as (b & U). exists (Nat.max (rounds_for n) b). intros r R.
  destruct (update_feeds (Some d, n) (lib_init L) G r) as (p & P1 & P2 & P3); [cbn; lia|].
  destruct (U r ltac:(lia) (fold_left (lib_update L) p (lib_init L))) as (q & Q1 & Q2 & Q3).
  eexists. eexists. split; [exact P3|]. split; [exact Q3|]. cbn [bytes_meant] in P2.
  rewrite <- P2, <- Q2, <- concat_app in B |- *. rewrite <- fold_left_app. apply C; [|exact B].
  apply Forall_app. split; [eapply Forall_impl; [|exact P1]|eapply Forall_impl; [|exact Q1]]; cbn; intuition.
Qed.

Lemma digest_null_ok : computes_sha256 L -> forall n l, Forall good_buffer l ->
  len (concat (map bytes_meant l)) < 2 ^ 61 ->
  exists bound, forall r, (bound <= r)%nat ->
    exists c c', sha_new L r None n = Some (Done c) /\ sha_updates L r c l = Some (Done c') /\
      fst (sha_digest L c') = sha256 (concat (map bytes_meant l)).
Proof.
  intros C n l F B. destruct (updates_feed l F) as (b & U). exists b. intros r R.
  destruct (U r R (lib_init L)) as (q & Q1 & Q2 & Q3).
  eexists. eexists. split; [reflexivity|]. split; [exact Q3|].
  rewrite <- Q2 in B |- *. apply C; [|exact B]. eapply Forall_impl; [|exact Q1]. cbn; intuition.
Qed.
End Facts.

(** ** A library that works block by block *)
Fixpoint absorb (n : nat) (h : list N) (l : list byte) : list N * list byte :=
  match n with
  | O => (h, l)
  | S n' => absorb n' (compress h (firstn 64 l)) (skipn 64 l)
  end.
Record sctx := SCtx { s_hash : list N; s_rest : list byte; s_count : N }.
Definition s_update (c : sctx) (d : list byte) : sctx :=
  let l := s_rest c ++ d in
  let '(h, r) := absorb (Nat.div (length l) 64) (s_hash c) l in SCtx h r (s_count c + len d).
Definition s_final (c : sctx) : list byte * sctx :=
  let tail := s_rest c ++ x80 :: repeat x00 (N.to_nat ((119 - s_count c mod 64) mod 64)) ++ be_bytes 8 (8 * s_count c) in
  (digest (fst (absorb (Nat.div (length tail) 64) (s_hash c) tail)), c).
Definition block_lib : sha_lib := ShaLib sctx (SCtx H0 [] 0) s_update s_final.

Lemma skip_skip {A} x y (l : list A) : skipn x (skipn y l) = skipn (x + y) l.
Proof.
  revert l. induction y as [|y IH]; intros l; [rewrite Nat.add_0_r; reflexivity|].
  destruct l as [|a l]; [rewrite !skipn_nil; reflexivity|]. rewrite Nat.add_succ_r. cbn [skipn]. apply IH.
Qed.
Lemma absorb_blocks n : forall h l, absorb n h l = (fold_left compress (blocks n l) h, skipn (64 * n) l).
Proof.
  induction n as [|n IH]; intros h l; [reflexivity|].
  cbn [absorb blocks fold_left]. rewrite IH. f_equal. rewrite skip_skip. f_equal. lia.
Qed.
Lemma blocks_app n m : forall a b, length a = (64 * n)%nat -> blocks (n + m) (a ++ b) = blocks n a ++ blocks m b.
Proof.
  induction n as [|n IH]; intros a b H; [destruct a; [reflexivity|cbn in H; lia]|].
  cbn [blocks Nat.add]. assert (64 <= length a)%nat by lia.
  rewrite firstn_app, skipn_app. replace (64 - length a)%nat with O by lia. change (firstn 0 b) with (@nil byte). change (skipn 0 b) with b. rewrite app_nil_r.
  cbn [app]. f_equal. apply IH. rewrite skipn_length. lia.
Qed.

Lemma blocks_split n k m t : (64 * n <= length m)%nat ->
  blocks (n + k) (m ++ t) = blocks n m ++ blocks k (skipn (64 * n) m ++ t).
Proof.
  intros D. assert (F : length (firstn (64 * n) m) = (64 * n)%nat) by (rewrite firstn_length; lia).
  pose proof (blocks_app n k (firstn (64 * n) m) (skipn (64 * n) m ++ t) F) as A.
  pose proof (blocks_app n 0 (firstn (64 * n) m) (skipn (64 * n) m) F) as B.
  rewrite app_assoc, firstn_skipn in A. rewrite firstn_skipn, Nat.add_0_r in B. cbn [blocks] in B. rewrite app_nil_r in B.
  rewrite A, B. reflexivity.
Qed.

(** After any pieces: the hash of the whole blocks, the rest, and the count. *)
Lemma absorbed pieces : let m := concat pieces in let n := Nat.div (length m) 64 in
  fold_left s_update pieces (SCtx H0 [] 0) = SCtx (fold_left compress (blocks n m) H0) (skipn (64 * n) m) (len m).
Proof.
  induction pieces as [|p ps IH] using rev_ind; [reflexivity|]. cbv zeta in *.
  rewrite fold_left_app, IH. cbn [fold_left]. rewrite concat_app. cbn [concat]. rewrite app_nil_r.
  set (m := concat ps) in *. set (n := Nat.div (length m) 64).
  unfold s_update. cbn [s_rest s_hash s_count]. rewrite absorb_blocks.
  assert (D : (64 * n <= length m)%nat) by (apply Nat.mul_div_le; discriminate).
  assert (K : Nat.div (length (m ++ p)) 64 = (n + Nat.div (length (skipn (64 * n) m ++ p)) 64)%nat).
  { rewrite !app_length, skipn_length. replace (length m + length p)%nat with ((length m - 64 * n + length p) + n * 64)%nat by lia.
    rewrite Nat.div_add by discriminate. lia. }
  rewrite K. set (k := Nat.div (length (skipn (64 * n) m ++ p)) 64).
  f_equal.
  - rewrite <- fold_left_app. f_equal. symmetry. apply blocks_split. exact D.
  - replace (64 * (n + k))%nat with (64 * k + 64 * n)%nat by lia. rewrite <- skip_skip. rewrite (skipn_app (64 * n)).
    replace (64 * n - length m)%nat with O by lia. reflexivity.
  - rewrite len_app. reflexivity.
Qed.

Lemma block_lib_ok : computes_sha256 block_lib.
Proof.
  intros pieces _ _. cbn [lib_final lib_update lib_init block_lib]. rewrite absorbed. cbv zeta.
  set (m := concat pieces). set (n := Nat.div (length m) 64).
  unfold s_final. cbn [fst s_hash s_rest s_count]. rewrite absorb_blocks. cbn [fst]. unfold sha256, all_blocks, pad.
  set (t := x80 :: _ ++ _). f_equal. rewrite <- fold_left_app. f_equal.
  assert (D : (64 * n <= length m)%nat) by (apply Nat.mul_div_le; discriminate).
  assert (K : Nat.div (length (m ++ t)) 64 = (n + Nat.div (length (skipn (64 * n) m ++ t)) 64)%nat).
  { rewrite !app_length, skipn_length. replace (length m + length t)%nat with ((length m - 64 * n + length t) + n * 64)%nat by lia.
    rewrite Nat.div_add by discriminate. lia. }
  rewrite K. symmetry. apply blocks_split. exact D.
Qed.

Lemma be_bytes_length n v : length (be_bytes n v) = n.
Proof. revert v. induction n as [|n IH]; intros v; cbn; auto. rewrite app_length, IH. cbn. lia. Qed.
Lemma round_length s kw : length (round s kw) = length s.
Proof. unfold round. repeat (destruct s as [|? s]; try reflexivity). Qed.
Lemma compress_length h b : length (compress h b) = length h.
Proof.
  unfold compress. rewrite map_length, combine_length.
  enough (X : forall l s, length (fold_left round l s) = length s) by (rewrite X; lia).
  induction l as [|x l IH]; intros s; cbn; auto. rewrite IH. apply round_length.
Qed.
Lemma sha256_length m : length (sha256 m) = 32%nat.
Proof.
  unfold sha256, digest. set (h := fold_left _ _ _). assert (H : length h = 8%nat).
  { unfold h. enough (X : forall l s, length (fold_left compress l s) = length s) by (rewrite X; reflexivity).
    induction l as [|x l IH]; intros s; cbn; auto. rewrite IH. apply compress_length. }
  assert (X : forall l, length (flat_map (be_bytes 4) l) = (4 * length l)%nat).
  { induction l as [|x l IH]; cbn [flat_map length]; auto. rewrite app_length, IH, be_bytes_length. lia. }
  rewrite X, H. reflexivity.
Qed.
