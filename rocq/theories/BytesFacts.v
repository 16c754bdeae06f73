(** * Facts about Base.v and Bytes.v (proofs only). *)
From Verif Require Import Base Bytes.
Open Scope N_scope.

(** ** Lists *)
Lemma len_nil {A} : len (@nil A) = 0. Proof. reflexivity. Qed.
Lemma len_cons {A} (a : A) l : len (a :: l) = len l + 1.
Proof. unfold len. cbn [length]. lia. Qed.
Lemma len_app {A} (l l' : list A) : len (l ++ l') = len l + len l'.
Proof. unfold len. rewrite app_length. lia. Qed.
Lemma len_take {A} n (l : list A) : len (take n l) = N.min n (len l).
Proof. unfold len, take. rewrite firstn_length. lia. Qed.
Lemma len_drop {A} n (l : list A) : len (drop n l) = len l - n.
Proof. unfold len, drop. rewrite skipn_length. lia. Qed.
Lemma len_rep {A} (a : A) n : len (rep a n) = n.
Proof. unfold len, rep. rewrite repeat_length. lia. Qed.
Lemma len_rev {A} (l : list A) : len (rev l) = len l.
Proof. unfold len. rewrite rev_length. reflexivity. Qed.
Lemma len_map {A B} (f : A -> B) l : len (map f l) = len l.
Proof. unfold len. rewrite map_length. reflexivity. Qed.
Lemma len_0 {A} (l : list A) : len l = 0 -> l = [].
Proof. destruct l; [reflexivity|]. rewrite len_cons. lia. Qed.

Lemma take_app_exact {A} (l l' : list A) n : n = len l -> take n (l ++ l') = l.
Proof.
  intros ->. unfold take, len. rewrite Nnat.Nat2N.id.
  rewrite firstn_app, Nat.sub_diag, firstn_O, app_nil_r. apply firstn_all.
Qed.
Lemma drop_app_exact {A} (l l' : list A) n : n = len l -> drop n (l ++ l') = l'.
Proof.
  intros ->. unfold drop, len. rewrite Nnat.Nat2N.id.
  rewrite skipn_app, Nat.sub_diag, skipn_all. reflexivity.
Qed.
Lemma take_all {A} (l : list A) n : len l <= n -> take n l = l.
Proof. intros H. unfold take. apply firstn_all2. unfold len in H. lia. Qed.
Lemma drop_all {A} (l : list A) n : len l <= n -> drop n l = [].
Proof. intros H. unfold drop. apply skipn_all2. unfold len in H. lia. Qed.
Lemma take_0 {A} (l : list A) : take 0 l = []. Proof. reflexivity. Qed.
Lemma drop_0 {A} (l : list A) : drop 0 l = l. Proof. reflexivity. Qed.
Lemma take_drop {A} n (l : list A) : take n l ++ drop n l = l.
Proof. apply firstn_skipn. Qed.
Lemma take_app_le {A} (l l' : list A) n : n <= len l -> take n (l ++ l') = take n l.
Proof.
  intros H. unfold take. rewrite firstn_app.
  replace (N.to_nat n - length l)%nat with 0%nat by (unfold len in H; lia).
  rewrite firstn_O, app_nil_r. reflexivity.
Qed.
Lemma take_app_ge {A} (l l' : list A) n : len l <= n -> take n (l ++ l') = l ++ take (n - len l) l'.
Proof.
  intros H. unfold take. rewrite firstn_app, firstn_all2 by (unfold len in H; lia).
  f_equal. f_equal. unfold len in *. lia.
Qed.
Lemma drop_app_le {A} (l l' : list A) n : n <= len l -> drop n (l ++ l') = drop n l ++ l'.
Proof.
  intros H. unfold drop. rewrite skipn_app.
  replace (N.to_nat n - length l)%nat with 0%nat by (unfold len in H; lia). reflexivity.
Qed.
Lemma drop_app_ge {A} (l l' : list A) n : len l <= n -> drop n (l ++ l') = drop (n - len l) l'.
Proof.
  intros H. unfold drop. rewrite skipn_app, skipn_all2 by (unfold len in H; lia).
  cbn [app]. f_equal. unfold len in *. lia.
Qed.
Lemma drop_drop {A} (l : list A) a b : drop a (drop b l) = drop (a + b) l.
Proof.
  unfold drop. rewrite Nnat.N2Nat.inj_add.
  generalize (N.to_nat a) (N.to_nat b). clear. intros a b. revert l.
  induction b as [|b IH]; intros l; [rewrite Nat.add_0_r; reflexivity|].
  destruct l as [|x l]; [rewrite !skipn_nil; reflexivity|].
  cbn [skipn]. rewrite IH. rewrite Nat.add_succ_r. reflexivity.
Qed.
Lemma take_take {A} (l : list A) a b : take a (take b l) = take (N.min a b) l.
Proof. unfold take. rewrite firstn_firstn. f_equal. lia. Qed.
Lemma firstn_repeat {A} (x : A) n m : firstn n (repeat x m) = repeat x (Nat.min n m).
Proof. revert m; induction n as [|n IH]; intros [|m]; cbn; try reflexivity. now rewrite IH. Qed.
Lemma skipn_repeat {A} (x : A) n m : skipn n (repeat x m) = repeat x (m - n).
Proof. revert m; induction n as [|n IH]; intros [|m]; cbn; try reflexivity. now rewrite IH. Qed.
Lemma take_rep {A} (x : A) a b : take a (rep x b) = rep x (N.min a b).
Proof. unfold take, rep. rewrite firstn_repeat. f_equal. lia. Qed.
Lemma drop_rep {A} (x : A) a b : drop a (rep x b) = rep x (b - a).
Proof. unfold drop, rep. rewrite skipn_repeat. f_equal. lia. Qed.
Lemma rep_app {A} (x : A) a b : rep x a ++ rep x b = rep x (a + b).
Proof. unfold rep. rewrite <- repeat_app. f_equal. lia. Qed.
Lemma rep_0 {A} (x : A) : rep x 0 = []. Proof. reflexivity. Qed.

Lemma drop_take_comm {A} (l : list A) a b : drop a (take b l) = take (b - a) (drop a l).
Proof. unfold drop, take. rewrite skipn_firstn_comm. f_equal. lia. Qed.
Lemma drop_len_app {A} (l l' : list A) : drop (len l) (l ++ l') = l'.
Proof. apply drop_app_exact. reflexivity. Qed.
Lemma take_len_app {A} (l l' : list A) : take (len l) (l ++ l') = l.
Proof. apply take_app_exact. reflexivity. Qed.

(** ** Bytes *)
Lemma b2n_lt b : b2n b < 256.
Proof. unfold b2n. pose proof (Byte.to_N_bounded b). lia. Qed.
Lemma n2b_b2n b : n2b (b2n b) = b.
Proof.
  unfold n2b, b2n. rewrite N.mod_small by (pose proof (Byte.to_N_bounded b); lia).
  rewrite Byte.of_to_N. reflexivity.
Qed.
Lemma b2n_n2b n : b2n (n2b n) = n mod 256.
Proof.
  unfold n2b, b2n.
  destruct (Byte.of_N (n mod 256)) as [b|] eqn:E.
  - apply Byte.to_of_N in E. exact E.
  - apply Byte.of_N_None_iff in E. pose proof (N.mod_lt n 256). lia.
Qed.
Lemma b2n_inj a b : b2n a = b2n b -> a = b.
Proof. intros H. rewrite <- (n2b_b2n a), <- (n2b_b2n b), H. reflexivity. Qed.
Lemma n2b_mod n : n2b (n mod 256) = n2b n.
Proof. unfold n2b. rewrite N.mod_mod by lia. reflexivity. Qed.
Lemma n2b_small_inj a b : a < 256 -> b < 256 -> n2b a = n2b b -> a = b.
Proof.
  intros Ha Hb H. apply (f_equal b2n) in H. rewrite !b2n_n2b, !N.mod_small in H by lia. exact H.
Qed.

Lemma le_length n v : length (le n v) = n.
Proof. revert v; induction n as [|n IH]; intros v; cbn; [reflexivity|]. now rewrite IH. Qed.
Lemma len_le n v : len (le n v) = N.of_nat n.
Proof. unfold len. rewrite le_length. reflexivity. Qed.

Lemma of_le_bound l : of_le l < 256 ^ (len l).
Proof.
  induction l as [|b l IH]; [cbn; lia|].
  cbn [of_le]. rewrite len_cons, N.add_1_r, N.pow_succ_r'. pose proof (b2n_lt b). nia.
Qed.

Lemma of_le_le n v : of_le (le n v) = v mod 256 ^ N.of_nat n.
Proof.
  revert v; induction n as [|n IH]; intros v.
  - cbn [le of_le]. change (256 ^ N.of_nat 0) with 1. rewrite N.mod_1_r. reflexivity.
  - cbn [le of_le]. rewrite IH, b2n_n2b.
    replace (N.of_nat (S n)) with (N.succ (N.of_nat n)) by lia.
    rewrite N.pow_succ_r'.
    rewrite N.mod_mul_r; [lia| lia|]. apply N.pow_nonzero. lia.
Qed.
Lemma of_le_le_small n v : v < 256 ^ N.of_nat n -> of_le (le n v) = v.
Proof. intros H. rewrite of_le_le. apply N.mod_small. exact H. Qed.

Lemma le_of_le l : le (length l) (of_le l) = l.
Proof.
  induction l as [|b l IH]; [reflexivity|].
  cbn [length le of_le]. f_equal.
  - rewrite <- (n2b_b2n b) at 2. apply b2n_inj. rewrite !b2n_n2b.
    rewrite N.mul_comm. rewrite N.mod_add by lia. reflexivity.
  - rewrite N.mul_comm. rewrite N.div_add by lia.
    rewrite N.div_small by apply b2n_lt. rewrite N.add_0_l. exact IH.
Qed.
Lemma le_of_le_n n l : length l = n -> le n (of_le l) = l.
Proof. intros <-. apply le_of_le. Qed.

Lemma of_le_inj l l' : length l = length l' -> of_le l = of_le l' -> l = l'.
Proof. intros H E. rewrite <- (le_of_le l), <- (le_of_le l'), E, H. reflexivity. Qed.

(** masks and shifts *)
Lemma land_255 v : N.land v 255 = v mod 256.
Proof. change 255 with (N.ones 8). rewrite N.land_ones. reflexivity. Qed.
Lemma land_65535 v : N.land v 65535 = v mod 65536.
Proof. change 65535 with (N.ones 16). rewrite N.land_ones. reflexivity. Qed.
Lemma land_ffffffff v : N.land v 4294967295 = v mod 4294967296.
Proof. change 4294967295 with (N.ones 32). rewrite N.land_ones. reflexivity. Qed.

Lemma be16_rev v : be16 v = rev (le 2 v).
Proof.
  unfold be16. cbn [le rev app]. rewrite !land_255, !n2b_mod, N.shiftr_div_pow2.
  reflexivity.
Qed.
Lemma le_mod n m v : (n <= m)%nat -> le n (v mod 256 ^ N.of_nat m) = le n v.
Proof.
  revert m v; induction n as [|n IH]; intros m v H; [reflexivity|].
  destruct m as [|m]; [lia|].
  cbn [le].
  replace (N.of_nat (S m)) with (N.succ (N.of_nat m)) by lia.
  rewrite N.pow_succ_r'.
  assert (Hp : 256 ^ N.of_nat m <> 0) by (apply N.pow_nonzero; lia).
  rewrite N.mod_mul_r by (try lia; exact Hp).
  f_equal.
  - apply b2n_inj. rewrite !b2n_n2b. rewrite N.mul_comm.
    rewrite N.mod_add by lia. rewrite N.mod_mod by lia. reflexivity.
  - rewrite N.mul_comm. rewrite N.div_add by lia.
    rewrite N.div_small by (apply N.mod_lt; lia). rewrite N.add_0_l.
    apply IH. lia.
Qed.
Lemma le_app n m v : le (n + m) v = le n v ++ le m (v / 256 ^ N.of_nat n).
Proof.
  revert v; induction n as [|n IH]; intros v.
  - cbn [Nat.add le app]. change (256 ^ N.of_nat 0) with 1. rewrite N.div_1_r. reflexivity.
  - cbn [Nat.add le app]. rewrite IH. f_equal. f_equal. f_equal.
    replace (N.of_nat (S n)) with (N.succ (N.of_nat n)) by lia.
    rewrite N.pow_succ_r'. rewrite N.div_div; [reflexivity|lia|]. apply N.pow_nonzero; lia.
Qed.
Lemma be32_rev v : be32 v = rev (le 4 v).
Proof.
  unfold be32. rewrite !be16_rev, !land_65535, N.shiftr_div_pow2.
  change (le 4 v) with (le (2 + 2) v). rewrite le_app, rev_app_distr.
  change 65536 with (256 ^ N.of_nat 2). rewrite !le_mod by lia. reflexivity.
Qed.
Lemma be64_rev v : be64 v = rev (le 8 v).
Proof.
  unfold be64. rewrite !be32_rev, !land_ffffffff, N.shiftr_div_pow2.
  change (le 8 v) with (le (4 + 4) v). rewrite le_app, rev_app_distr.
  change 4294967296 with (256 ^ N.of_nat 4). rewrite !le_mod by lia. reflexivity.
Qed.

Lemma testbit_high b n i : b < 2 ^ n -> n <= i -> N.testbit b i = false.
Proof.
  intros Hb Hi. rewrite <- (N.mod_small b (2 ^ n) Hb). apply N.mod_pow2_bits_high. exact Hi.
Qed.
Lemma lor_shift_add a b n : b < 2 ^ n -> N.lor (N.shiftl a n) b = a * 2 ^ n + b.
Proof.
  intros Hb. rewrite <- N.shiftl_mul_pow2.
  assert (Hd : N.land (N.shiftl a n) b = 0).
  { apply N.bits_inj_0. intros i. rewrite N.land_spec.
    destruct (N.lt_ge_cases i n) as [Hi|Hi].
    - rewrite N.shiftl_spec_low by exact Hi. reflexivity.
    - rewrite (testbit_high b n i Hb Hi). apply andb_false_r. }
  rewrite N.add_nocarry_lxor by exact Hd. symmetry. apply N.lxor_lor. exact Hd.
Qed.

Lemma of_le_app l l' : of_le (l ++ l') = of_le l + 256 ^ len l * of_le l'.
Proof.
  induction l as [|b l IH]; [cbn [app of_le]; change (256 ^ len []) with 1; lia|].
  cbn [app of_le]. rewrite IH, len_cons, N.add_1_r, N.pow_succ_r'. lia.
Qed.

Lemma from_be16_spec a b l : from_be16 (a :: b :: l) = of_le [b; a].
Proof.
  unfold from_be16. cbn [nth of_le].
  rewrite lor_shift_add; [|change (2^8) with 256; apply b2n_lt].
  change (2^8) with 256. lia.
Qed.
Lemma from_be32_spec a b c d l : from_be32 (a :: b :: c :: d :: l) = of_le [d; c; b; a].
Proof.
  unfold from_be32. cbn [skipn]. rewrite !from_be16_spec.
  pose proof (of_le_bound [d;c]) as H.
  change (256 ^ len [d;c]) with (2^16) in H.
  rewrite lor_shift_add by exact H. change (2^16) with 65536. cbn [of_le]. lia.
Qed.
Lemma from_be64_spec a b c d e f g h l :
  from_be64 (a :: b :: c :: d :: e :: f :: g :: h :: l) = of_le [h; g; f; e; d; c; b; a].
Proof.
  unfold from_be64. cbn [skipn]. rewrite !from_be32_spec.
  pose proof (of_le_bound [h;g;f;e]) as H.
  change (256 ^ len [h;g;f;e]) with (2^32) in H.
  rewrite lor_shift_add by exact H. change (2^32) with 4294967296. cbn [of_le]. lia.
Qed.

Lemma from_be16_rev l : length l = 2%nat -> from_be16 l = of_le (rev l).
Proof. destruct l as [|a [|b [|]]]; try discriminate. intros _. apply from_be16_spec. Qed.
Lemma from_be32_rev l : length l = 4%nat -> from_be32 l = of_le (rev l).
Proof. destruct l as [|a [|b [|c [|d [|]]]]]; try discriminate. intros _. apply from_be32_spec. Qed.
Lemma from_be64_rev l : length l = 8%nat -> from_be64 l = of_le (rev l).
Proof.
  destruct l as [|a [|b [|c [|d [|e [|f [|g [|h [|]]]]]]]]]; try discriminate.
  intros _. apply from_be64_spec.
Qed.

(** swap *)
Lemma len_length {A} (l : list A) n : len l = n <-> length l = N.to_nat n.
Proof. unfold len. lia. Qed.
Lemma swap_word_rev w l : len l = wbytes w -> swap_word w l = rev l.
Proof.
  intros H. apply len_length in H. destruct w; cbn [wbytes] in H.
  - change (N.to_nat 1) with 1%nat in H. destruct l as [|a [|]]; try discriminate. reflexivity.
  - change (N.to_nat 2) with 2%nat in H. destruct l as [|a [|b [|]]]; try discriminate. reflexivity.
  - change (N.to_nat 4) with 4%nat in H.
    destruct l as [|a [|b [|c [|d [|]]]]]; try discriminate. reflexivity.
  - change (N.to_nat 8) with 8%nat in H.
    destruct l as [|a [|b [|c [|d [|e [|f [|g [|h [|]]]]]]]]]; try discriminate. reflexivity.
Qed.

Lemma wbytes_pos w : 0 < wbytes w. Proof. destruct w; cbn; lia. Qed.

Lemma len_swap_word w l : len l = wbytes w -> len (swap_word w l) = wbytes w.
Proof. intros H. rewrite swap_word_rev by exact H. rewrite len_rev. exact H. Qed.
Lemma swap_word_invol w l : len l = wbytes w -> swap_word w (swap_word w l) = l.
Proof.
  intros H. rewrite (swap_word_rev w (swap_word w l)) by (apply len_swap_word; exact H).
  rewrite swap_word_rev by exact H. apply rev_involutive.
Qed.

Lemma len_swap_words w c l :
  N.of_nat c * wbytes w <= len l -> len (swap_words w c l) = len l.
Proof.
  revert l; induction c as [|c IH]; intros l H; [reflexivity|].
  cbn [swap_words]. pose proof (wbytes_pos w).
  rewrite len_app, len_swap_word by (rewrite len_take; nia).
  rewrite IH by (rewrite len_drop; nia). rewrite len_drop. nia.
Qed.
Lemma swap_words_invol w c l :
  N.of_nat c * wbytes w <= len l -> swap_words w c (swap_words w c l) = l.
Proof.
  revert l; induction c as [|c IH]; intros l H; [reflexivity|].
  cbn [swap_words]. pose proof (wbytes_pos w).
  assert (Ht : len (take (wbytes w) l) = wbytes w) by (rewrite len_take; nia).
  rewrite take_app_exact by (rewrite len_swap_word; auto).
  rewrite drop_app_exact by (rewrite len_swap_word; auto).
  rewrite swap_word_invol by exact Ht.
  rewrite IH by (rewrite len_drop; nia). apply take_drop.
Qed.
Lemma swap_words_app w c l l' :
  len l = N.of_nat c * wbytes w -> swap_words w c (l ++ l') = swap_words w c l ++ l'.
Proof.
  revert l; induction c as [|c IH]; intros l H.
  - apply (len_0 l) in H. subst l. reflexivity.
  - cbn [swap_words]. pose proof (wbytes_pos w).
    rewrite take_app_le, drop_app_le by nia.
    rewrite IH by (rewrite len_drop; nia). rewrite app_assoc. reflexivity.
Qed.
Lemma swap_words_W8 c l : swap_words W8 c l = l.
Proof.
  revert l; induction c as [|c IH]; intros l; [reflexivity|].
  cbn [swap_words swap_word]. rewrite IH. apply take_drop.
Qed.
Lemma swap_words_add w c d l l' :
  len l = N.of_nat c * wbytes w ->
  swap_words w (c + d) (l ++ l') = swap_words w c l ++ swap_words w d l'.
Proof.
  revert l; induction c as [|c IH]; intros l H.
  - apply (len_0 l) in H. subst l. reflexivity.
  - cbn [swap_words Nat.add]. pose proof (wbytes_pos w).
    rewrite take_app_le, drop_app_le by nia.
    rewrite IH by (rewrite len_drop; nia). rewrite app_assoc. reflexivity.
Qed.

(** uuid *)
Lemma rev_of_le_4 l : length l = 4%nat -> be32 (of_le l) = rev l.
Proof. intros H. rewrite be32_rev. rewrite le_of_le_n by exact H. reflexivity. Qed.
Lemma rev_of_le_2 l : length l = 2%nat -> be16 (of_le l) = rev l.
Proof. intros H. rewrite be16_rev. rewrite le_of_le_n by exact H. reflexivity. Qed.

Ltac list16 l :=
  destruct l as [|? [|? [|? [|? [|? [|? [|? [|? [|? [|? [|? [|? [|? [|? [|? [|? [|? ?]]]]]]]]]]]]]]]]];
  try discriminate.

Lemma uuid_to_wire_spec a b c d e f g h i j k l m n o p :
  uuid_to_wire [a;b;c;d;e;f;g;h;i;j;k;l;m;n;o;p] = [d;c;b;a;f;e;h;g;i;j;k;l;m;n;o;p].
Proof.
  unfold uuid_to_wire.
  change (take 4 _) with [a;b;c;d]. change (take 2 (drop 4 _)) with [e;f].
  change (take 2 (drop 6 _)) with [g;h]. change (take 8 (drop 8 _)) with [i;j;k;l;m;n;o;p].
  rewrite rev_of_le_4, !rev_of_le_2 by reflexivity. reflexivity.
Qed.
Lemma uuid_from_wire_spec a b c d e f g h i j k l m n o p :
  uuid_from_wire [a;b;c;d;e;f;g;h;i;j;k;l;m;n;o;p] = [d;c;b;a;f;e;h;g;i;j;k;l;m;n;o;p].
Proof.
  unfold uuid_from_wire.
  change (drop 4 _) with [e;f;g;h;i;j;k;l;m;n;o;p].
  change (drop 6 _) with [g;h;i;j;k;l;m;n;o;p].
  change (take 8 (drop 8 _)) with [i;j;k;l;m;n;o;p].
  rewrite from_be32_spec, !from_be16_spec.
  rewrite !le_of_le_n by reflexivity. reflexivity.
Qed.
Lemma uuid_from_to img : length img = 16%nat -> uuid_from_wire (uuid_to_wire img) = img.
Proof.
  intros H. list16 img. rewrite uuid_to_wire_spec, uuid_from_wire_spec. reflexivity.
Qed.
Lemma uuid_to_from raw : length raw = 16%nat -> uuid_to_wire (uuid_from_wire raw) = raw.
Proof.
  intros H. list16 raw. rewrite uuid_from_wire_spec, uuid_to_wire_spec. reflexivity.
Qed.
Lemma len_uuid_to_wire img : length img = 16%nat -> length (uuid_to_wire img) = 16%nat.
Proof. intros H. list16 img. rewrite uuid_to_wire_spec. reflexivity. Qed.
Lemma len_uuid_from_wire img : length img = 16%nat -> length (uuid_from_wire img) = 16%nat.
Proof. intros H. list16 img. rewrite uuid_from_wire_spec. reflexivity. Qed.

(** ** 64-bit arithmetic *)
Lemma two64_pos : 0 < two64. Proof. reflexivity. Qed.
Lemma w64_small n : n < two64 -> w64 n = n.
Proof. apply N.mod_small. Qed.
Lemma w64_lt n : w64 n < two64.
Proof. apply N.mod_lt. discriminate. Qed.
Lemma add64_small a b : a + b < two64 -> add64 a b = a + b.
Proof. apply w64_small. Qed.
Lemma mul64_small a b : a * b < two64 -> mul64 a b = a * b.
Proof. apply w64_small. Qed.
Lemma sub64_small a b : b <= a -> a < two64 -> sub64 a b = a - b.
Proof.
  intros H1 H2. unfold sub64, w64.
  replace (a + two64 - b) with (a - b + 1 * two64) by lia.
  rewrite N.mod_add by discriminate. apply N.mod_small. lia.
Qed.

(** Rewrites all 64-bit operations that stay in range, innermost first. *)
Ltac no64 t := lazymatch t with
  | context[add64 _ _] => fail | context[sub64 _ _] => fail | context[mul64 _ _] => fail | _ => idtac end.
Ltac u64_simpl :=
  repeat match goal with
  | |- context[add64 ?a ?b] => no64 a; no64 b; rewrite (add64_small a b) by lia
  | |- context[sub64 ?a ?b] => no64 a; no64 b; rewrite (sub64_small a b) by lia
  | |- context[mul64 ?a ?b] => no64 a; no64 b; rewrite (mul64_small a b) by lia
  end.
