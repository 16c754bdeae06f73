(** * GenDataOps: the operators and the hash functions in the text of the data types. *)
From Coq Require Import Strings.String.
From Verif Require Import Base Bytes BytesFacts Values Types Keys KeyFacts Refs RefFacts GenText CppText CppFun CppDyn GenTypes GenRW GenDyn GenData CppData GenDataSpec GenDataFacts.
Local Open Scope string_scope.
Local Open Scope list_scope.
Local Open Scope N_scope.

(** ** Steps *)
Section Steps.
Context (G : genv).
Lemma op_prim f o a b r : compare o a b = Some r -> operator G f o a b = Some (truth_val r).
Proof. intros H. unfold operator. rewrite H. reflexivity. Qed.
Lemma ev_cmp m E o x y v w r : ev m G E x = Some v -> ev m G E y = Some w -> operator G (ev m G) o v w = r -> ev (S m) G E (XCmp o x y) = r.
Proof. intros A B C. cbn [ev]. rewrite A, B. exact C. Qed.
Lemma ev_and m E x y a b : ev m G E x = Some (truth_val a) -> ev m G E y = Some (truth_val b) -> ev (S m) G E (XAnd x y) = Some (truth_val (a && b)).
Proof. intros A B. cbn [ev]. rewrite A. destruct a; [exact B|reflexivity]. Qed.
Lemma ev_or m E x y a b : ev m G E x = Some (truth_val a) -> ev m G E y = Some (truth_val b) -> ev (S m) G E (XOr x y) = Some (truth_val (a || b)).
Proof. intros A B. cbn [ev]. rewrite A. destruct a; [reflexivity|exact B]. Qed.
Lemma ev_xor m E x y v w r : ev m G E x = Some v -> ev m G E y = Some w -> xor_of v w = r -> ev (S m) G E (XXor x y) = r.
Proof. intros A B C. cbn [ev]. rewrite A, B. exact C. Qed.
(** An operator that is a function of the file. *)
Lemma op_fun f o t a b p q e k r :
  compare o (XO t a) (XO t b) = None -> match t with LClass _ _ _ => False | _ => True end ->
  find_first (fun x => sym_eqb o (fst (fst x)) && lt_eqb t (snd (fst x))) (ge_opers G) = Some (k, ([p; q], [SRet e])) ->
  resolve G (p_type p) = Some t -> resolve G (p_type q) = Some t -> lt_eqb t t = true -> resolve G (Ct ["bool"] []) = Some LBool ->
  f [(p_name p, (p_const p, XO t a)); (p_name q, (p_const q, XO t b))] e = Some (truth_val r) ->
  operator G f o (XO t a) (XO t b) = Some (truth_val r).
Proof.
  intros A B C D F L R H. unfold operator. rewrite A. cbn [type_of]. rewrite C.
  assert (X : call G f (Ct ["bool"] []) [p; q] [] [XO t a; XO t b] [SRet e] = Some (truth_val r, [(p_name p, (p_const p, XO t a)); (p_name q, (p_const q, XO t b))])).
  { unfold call. cbn [binds]. rewrite D, F, L. unfold exec, exec1. cbn [app]. rewrite H. unfold returns. rewrite R. reflexivity. }
  destruct t; try (rewrite X; reflexivity). destruct B.
Qed.
(** An operator that is a member of a class, and a conversion to bool. *)
Lemma op_method f o n g u a b p k c e r :
  compare o (XO (LClass n g u) a) (XO (LClass n g u) b) = None -> assoc n (ge_classes G) = Some c ->
  find_first (fun k => mname_eqb (MOper o) (xm_name k) && negb (xm_static k) && takes G false [LClass n g u] (xm_params k)) (methods (xc_parts c)) = Some k ->
  xm_body k = Some [SRet e] -> xm_params k = [p] -> resolve G (p_type p) = Some (LClass n g u) -> lt_eqb (LClass n g u) (LClass n g u) = true ->
  resolve G (xm_type k) = Some LBool ->
  f [(p_name p, (p_const p, XO (LClass n g u) b)); ("this", (xm_this k, XO (LClass n g u) a))] e = Some (truth_val r) ->
  operator G f o (XO (LClass n g u) a) (XO (LClass n g u) b) = Some (truth_val r).
Proof.
  intros A B C D P F L R H. unfold operator. rewrite A. unfold method. rewrite B. cbn [map type_of]. rewrite C, D. unfold call. rewrite P. cbn [binds]. rewrite F, L.
  unfold exec, exec1. cbn [app]. rewrite H. unfold returns. rewrite R. reflexivity.
Qed.
End Steps.

Definition word (i : N) (a : list byte) : list byte := take 8 (drop (8 * i) a).
Definition W (i : N) (a : list byte) : xv := XO (LInt false 8) (VP (word i a)).

(** ** GUID and HASH *)
Definition oper_of (o : sym) (t : lt) := find_first (fun x => sym_eqb o (fst (fst x)) && lt_eqb t (snd (fst x))) (ge_opers data_genv).
Definition code_of (x : option ((sym * lt) * (list param * list xs))) : xe := match x with Some (_, (_, [SRet e])) => e | _ => XThis end.
Definition guid_lt_code : xe := Eval vm_compute in code_of (oper_of CppText.Lt LGuid).
Definition hash_lt_code : xe := Eval vm_compute in code_of (oper_of CppText.Lt LHash).
Definition hash_eq_code : xe := Eval vm_compute in code_of (oper_of EqEq LHash).
Definition hash_ne_code : xe := Eval vm_compute in code_of (oper_of BangEq LHash).
Definition uuid_par (x : string) : param := Par true (Ct ["UUID"] []) ByRef x.
Definition hash_par (x : string) : param := Par true (Ct ["HASH"] []) ByRef x.
Definition two (t : lt) (a b : list byte) : env := [("Left", (true, XO t (VP a))); ("Right", (true, XO t (VP b)))].

Lemma compare_memcmp n a b : compare CppText.Lt (memcmp_val n a b) (int_lit true 4 0) = Some (lex_lt (take n a) (take n b)).
Proof. unfold memcmp_val, lex_lt. destruct (lex (take n a) (take n b)); vm_compute; reflexivity. Qed.
Lemma guid_lt m a b : operator data_genv (ev (S (S (S (S m)))) data_genv) CppText.Lt (XO LGuid (VP a)) (XO LGuid (VP b)) = Some (truth_val (lex_lt (take 16 a) (take 16 b))).
Proof.
  apply (op_fun data_genv _ _ LGuid (VP a) (VP b) (uuid_par "Left") (uuid_par "Right") guid_lt_code (CppText.Lt, LGuid)); [reflexivity|exact Logic.I|vm_compute; reflexivity|vm_compute; reflexivity|vm_compute; reflexivity|reflexivity|vm_compute; reflexivity|].
  unfold guid_lt_code. eapply ev_cmp; [|vm_compute; reflexivity|].
  - instantiate (1 := memcmp_val 16 a b). lazy -[memcmp_val]. reflexivity.
  - apply op_prim. apply (compare_memcmp 16 a b).
Qed.

Lemma hash_lt m a b : operator data_genv (ev (S (S (S (S m)))) data_genv) CppText.Lt (XO LHash (VP a)) (XO LHash (VP b)) = Some (truth_val (lex_lt (take 32 a) (take 32 b))).
Proof.
  apply (op_fun data_genv _ _ LHash (VP a) (VP b) (hash_par "Left") (hash_par "Right") hash_lt_code (CppText.Lt, LHash)); [reflexivity|exact Logic.I|vm_compute; reflexivity|vm_compute; reflexivity|vm_compute; reflexivity|reflexivity|vm_compute; reflexivity|].
  unfold hash_lt_code. eapply ev_cmp; [|vm_compute; reflexivity|].
  - instantiate (1 := memcmp_val 32 a b). lazy -[memcmp_val]. reflexivity.
  - apply op_prim. apply (compare_memcmp 32 a b).
Qed.
Definition same (i : N) (a b : list byte) : bool := of_le (word i a) =? of_le (word i b).
Lemma compare_word o i a b : o = EqEq \/ o = BangEq -> compare o (W i a) (W i b) = Some (if sym_eqb o EqEq then same i a b else negb (same i a b)).
Proof.
  assert (Z : (int_of false (word i a) =? int_of false (word i b))%Z = same i a b).
  { unfold int_of, same. destruct (N.eqb_spec (of_le (word i a)) (of_le (word i b))) as [E|E]; [rewrite E; apply Z.eqb_refl|]. apply Z.eqb_neq. intros F. apply E. lia. }
  intros [->| ->]; unfold compare, W; cbn [Bool.eqb]; change (8 =? 8) with true; cbn [andb int_cmp sym_eqb]; rewrite Z; reflexivity.
Qed.
Ltac leaf i a := instantiate (1 := W i a); lazy; reflexivity.
Lemma hash_eq m a b : operator data_genv (ev (S (S (S (S (S (S (S (S m)))))))) data_genv) EqEq (XO LHash (VP a)) (XO LHash (VP b))
  = Some (truth_val (same 0 a b && (same 1 a b && (same 2 a b && same 3 a b)))).
Proof.
  apply (op_fun data_genv _ _ LHash (VP a) (VP b) (hash_par "Left") (hash_par "Right") hash_eq_code (EqEq, LHash)); [reflexivity|exact Logic.I|vm_compute; reflexivity|vm_compute; reflexivity|vm_compute; reflexivity|reflexivity|vm_compute; reflexivity|].
  unfold hash_eq_code. apply ev_and; [|apply ev_and; [|apply ev_and]].
  - eapply ev_cmp; [leaf 0 a|leaf 0 b|]. apply op_prim. apply (compare_word EqEq); auto.
  - eapply ev_cmp; [leaf 1 a|leaf 1 b|]. apply op_prim. apply (compare_word EqEq); auto.
  - eapply ev_cmp; [leaf 2 a|leaf 2 b|]. apply op_prim. apply (compare_word EqEq); auto.
  - eapply ev_cmp; [leaf 3 a|leaf 3 b|]. apply op_prim. apply (compare_word EqEq); auto.
Qed.
Lemma hash_ne m a b : operator data_genv (ev (S (S (S (S (S (S (S (S m)))))))) data_genv) BangEq (XO LHash (VP a)) (XO LHash (VP b))
  = Some (truth_val (negb (same 0 a b) || (negb (same 1 a b) || (negb (same 2 a b) || negb (same 3 a b))))).
Proof.
  apply (op_fun data_genv _ _ LHash (VP a) (VP b) (hash_par "Left") (hash_par "Right") hash_ne_code (BangEq, LHash)); [reflexivity|exact Logic.I|vm_compute; reflexivity|vm_compute; reflexivity|vm_compute; reflexivity|reflexivity|vm_compute; reflexivity|].
  unfold hash_ne_code. apply ev_or; [|apply ev_or; [|apply ev_or]].
  - eapply ev_cmp; [leaf 0 a|leaf 0 b|]. apply op_prim. apply (compare_word BangEq); auto.
  - eapply ev_cmp; [leaf 1 a|leaf 1 b|]. apply op_prim. apply (compare_word BangEq); auto.
  - eapply ev_cmp; [leaf 2 a|leaf 2 b|]. apply op_prim. apply (compare_word BangEq); auto.
  - eapply ev_cmp; [leaf 3 a|leaf 3 b|]. apply op_prim. apply (compare_word BangEq); auto.
Qed.

(** ** References *)
Definition method_of (n : string) (m : mname) : option xmeth :=
  match assoc n (ge_classes data_genv) with
  | Some c => find_first (fun k => mname_eqb m (xm_name k)) (methods (xc_parts c))
  | None => None
  end.
Definition member_of (k : rkind) : string := match k with ERef => "id_m" | PRef => "hash_m" end.
Definition ref_code (k : rkind) (o : sym) : xe := XCmp o (XDot (XDeref XThis) (member_of k)) (XDot (XName ["rval"]) (member_of k)).
Definition the_method (n : string) (m : mname) : xmeth :=
  match method_of n m with Some x => x | None => XMeth false false false (Ct [] []) ByValue m [] false None end.
Ltac use_method n o X :=
  let mm := eval vm_compute in (the_method n o) in
  eapply (op_method data_genv _ _ _ _ _ _ _ _ mm);
    [vm_compute; reflexivity|vm_compute; reflexivity|vm_compute; reflexivity|vm_compute; reflexivity|vm_compute; reflexivity|vm_compute; reflexivity|vm_compute; reflexivity|vm_compute; reflexivity|exact X].
Lemma ref_oper k o m a b r : In o [CppText.Lt; EqEq; BangEq] ->
  operator data_genv (ev (S (S (S m))) data_genv) o (XO (LId k) (VP a)) (XO (LId k) (VP b)) = Some (truth_val r) ->
  operator data_genv (ev (S (S (S (S m)))) data_genv) o (XO (LRef k) (VP a)) (XO (LRef k) (VP b)) = Some (truth_val r).
Proof.
  intros O H.
  assert (X : ev (S (S (S (S m)))) data_genv [("rval", (true, XO (LRef k) (VP b))); ("this", (true, XO (LRef k) (VP a)))] (ref_code k o) = Some (truth_val r)).
  { unfold ref_code. eapply ev_cmp; [| |exact H]; destruct k; lazy; reflexivity. }
  unfold ref_code, member_of in X. destruct k; destruct O as [<-|[<-|[<-|[]]]];
  [use_method "entity_ref" (MOper CppText.Lt) X|use_method "entity_ref" (MOper EqEq) X|use_method "entity_ref" (MOper BangEq) X
  |use_method "package_ref" (MOper CppText.Lt) X|use_method "package_ref" (MOper EqEq) X|use_method "package_ref" (MOper BangEq) X].
Qed.
(** Conversions of references. *)
Lemma conv_step f t n g u v c k e rt w : assoc n (ge_classes data_genv) = Some c ->
  find_first (fun k => match xm_name k with MConv r => match resolve data_genv r with Some t' => lt_eqb t t' | None => false end | _ => false end) (methods (xc_parts c)) = Some k ->
  xm_body k = Some [SRet e] -> resolve data_genv (xm_type k) = Some rt -> lt_eqb rt rt = true ->
  f [("this", (xm_this k, XO (LClass n g u) v))] e = Some (XO rt w) -> conversion data_genv f t (XO (LClass n g u) v) = Some (XO rt w).
Proof.
  intros A B C D L H. unfold conversion. rewrite A, B, C. unfold call. cbn [binds app]. unfold exec, exec1. rewrite H. unfold returns. rewrite D, L. reflexivity.
Qed.
Definition zero_name (k : rkind) : string := match k with ERef => "uuid_zero" | PRef => "hash_zero" end.
Lemma ref_truth k m a r : operator data_genv (ev (S (S (S m))) data_genv) BangEq (XO (LId k) (VP a)) (XO (LId k) (VP (id_zero k))) = Some (truth_val r) ->
  conversion data_genv (ev (S (S (S (S m)))) data_genv) LBool (XO (LRef k) (VP a)) = Some (truth_val r).
Proof.
  intros H.
  assert (X : ev (S (S (S (S m)))) data_genv [("this", (true, XO (LRef k) (VP a)))] (XCmp BangEq (XDot (XDeref XThis) (member_of k)) (XName [zero_name k])) = Some (truth_val r)).
  { eapply ev_cmp; [| |exact H]; destruct k; lazy; reflexivity. }
  unfold member_of, zero_name in X. (destruct k;
  [let mm := eval vm_compute in (the_method "entity_ref" (MConv (Ct ["bool"] []))) in eapply (conv_step _ _ _ _ _ _ _ mm)
  |let mm := eval vm_compute in (the_method "package_ref" (MConv (Ct ["bool"] []))) in eapply (conv_step _ _ _ _ _ _ _ mm)]);
  [vm_compute; reflexivity|vm_compute; reflexivity|vm_compute; reflexivity|vm_compute; reflexivity|vm_compute; reflexivity|exact X
  |vm_compute; reflexivity|vm_compute; reflexivity|vm_compute; reflexivity|vm_compute; reflexivity|vm_compute; reflexivity|exact X].
Qed.

(** ** Hash functions *)
Definition xors (i j : list byte) : list byte := le 8 (N.lxor (of_le i) (of_le j)).
Lemma xor_words i j : xor_of (XO (LInt false 8) (VP i)) (XO (LInt false 8) (VP j)) = Some (XO (LInt false 8) (VP (xors i j))).
Proof. reflexivity. Qed.
Lemma hashed_step f t v r p b e E w : find_first (fun x => lt_eqb t (fst x)) (ge_hashes data_genv) = Some (t, (r, p, b ++ [SRet e])) ->
  resolve data_genv (p_type p) = Some t -> lt_eqb t t = true -> resolve data_genv r = Some (LInt false 8) ->
  exec data_genv f [(p_name p, (p_const p, XO t v))] b = Some (None, E) -> f E e = Some (XO (LInt false 8) w) -> hashed data_genv f t (XO t v) = Some (XO (LInt false 8) w).
Proof.
  intros A B C D H K. unfold hashed. rewrite A. unfold call. cbn [binds]. rewrite B, C. cbn [app].
  assert (X : exec data_genv f [(p_name p, (p_const p, XO t v))] (b ++ [SRet e]) = Some (Some (XO (LInt false 8) w), E)).
  { clear A. revert H. generalize [(p_name p, (p_const p, XO t v))]. induction b as [|s b IH]; intros E0 H; cbn [app exec] in *.
    - injection H as <-. unfold exec1. rewrite K. reflexivity.
    - destruct (exec1 data_genv f E0 s) as [[[x|] E']|]; [discriminate H|exact (IH _ H)|discriminate H]. }
  rewrite X. unfold returns. rewrite D. reflexivity.
Qed.
Definition hash_of (t : lt) := find_first (fun x => lt_eqb t (fst x)) (ge_hashes data_genv).
Definition hash_code (t : lt) : xe := match hash_of t with Some (_, (_, _, b)) => match List.last b (SAssert XThis) with SRet e => e | _ => XThis end | None => XThis end.
Definition uuid_hash_code : xe := Eval vm_compute in hash_code LGuid.
Definition hash_hash_code : xe := Eval vm_compute in hash_code LHash.
Definition assert_code : xe := Eval vm_compute in match hash_of LGuid with Some (_, (_, _, SAssert a :: _)) => a | _ => XThis end.
Definition pointer_code : xs := Eval vm_compute in match hash_of LGuid with Some (_, (_, _, [_; s; _])) => s | _ => SAssert XThis end.
Definition val_par (n : string) : param := Par true (Ct [n] []) ByRef "val".
Lemma uuid_hash m a : hashed data_genv (ev (S (S (S (S (S (S m)))))) data_genv) LGuid (XO LGuid (VP a)) = Some (XO (LInt false 8) (VP (xors (word 0 a) (word 1 a)))).
Proof.
  eapply (hashed_step _ LGuid _ (Ct ["std"; "size_t"] []) (val_par "UUID") [SAssert assert_code; pointer_code] uuid_hash_code _); [vm_compute; reflexivity|vm_compute; reflexivity|vm_compute; reflexivity|vm_compute; reflexivity|vm_compute; reflexivity|].
  unfold uuid_hash_code. eapply ev_xor; [leaf 0 a|leaf 1 a|]. apply xor_words.
Qed.
Lemma hash_hash m a : hashed data_genv (ev (S (S (S (S (S (S m)))))) data_genv) LHash (XO LHash (VP a))
  = Some (XO (LInt false 8) (VP (xors (word 0 a) (xors (word 1 a) (xors (word 2 a) (word 3 a)))))).
Proof.
  eapply (hashed_step _ LHash _ (Ct ["std"; "size_t"] []) (val_par "HASH") [SAssert assert_code] hash_hash_code _); [vm_compute; reflexivity|vm_compute; reflexivity|vm_compute; reflexivity|vm_compute; reflexivity|vm_compute; reflexivity|].
  unfold hash_hash_code. eapply ev_xor; [leaf 0 a| |apply xor_words]. eapply ev_xor; [leaf 1 a| |apply xor_words]. eapply ev_xor; [leaf 2 a|leaf 3 a|apply xor_words].
Qed.

Lemma ev_hashed m E t u x v r : resolve data_genv t = Some u -> ev m data_genv E x = Some v -> hashed data_genv (ev m data_genv) u v = r ->
  ev (S m) data_genv E (XHashed t [x]) = r.
Proof. intros A B C. cbn [ev]. rewrite A. cbn [map]. rewrite B. cbn [all_some]. exact C. Qed.
Definition id_text (k : rkind) : string := match k with ERef => "UUID" | PRef => "HASH" end.
Lemma ref_hash k m a w : hashed data_genv (ev (S (S (S (S (S (S m)))))) data_genv) (LId k) (XO (LId k) (VP a)) = Some (XO (LInt false 8) w) ->
  hashed data_genv (ev (S (S (S (S (S (S (S m))))))) data_genv) (LRef k) (XO (LRef k) (VP a)) = Some (XO (LInt false 8) w).
Proof.
  intros H.
  assert (X : ev (S (S (S (S (S (S (S m))))))) data_genv [("val", (true, XO (LRef k) (VP a)))] (XHashed (Ct [id_text k] []) [XCall [id_text k] [XName ["val"]]]) = Some (XO (LInt false 8) w)).
  { eapply ev_hashed; [| |exact H]; destruct k; lazy; reflexivity. }
  unfold id_text in X.
  destruct k; [eapply (hashed_step _ _ _ (Ct ["std"; "size_t"] []) (Par true (Ct ["ISD"; "entity_ref"] []) ByRef "val") []); [vm_compute; reflexivity|vm_compute; reflexivity|vm_compute; reflexivity|vm_compute; reflexivity|vm_compute; reflexivity|exact X]
  |eapply (hashed_step _ _ _ (Ct ["std"; "size_t"] []) (Par true (Ct ["ISD"; "package_ref"] []) ByRef "val") []); [vm_compute; reflexivity|vm_compute; reflexivity|vm_compute; reflexivity|vm_compute; reflexivity|vm_compute; reflexivity|exact X]].
Qed.

(** ** What a program sees *)
Lemma deep_split : exists m, deep = S (S (S (S (S (S (S (S (S (S (S m)))))))))).
Proof. exists 29%nat. reflexivity. Qed.
Lemma drop_word i a : word i a = take 8 (drop (8 * i) a).
Proof. reflexivity. Qed.
Lemma same_words a b : same 0 a b && (same 1 a b && (same 2 a b && same 3 a b)) = words_eq 8 4 a b.
Proof. unfold same, word, words_eq. rewrite !drop_drop. rewrite !N.mul_0_r, !drop_0, andb_true_r. reflexivity. Qed.
Lemma differ_words a b : negb (same 0 a b) || (negb (same 1 a b) || (negb (same 2 a b) || negb (same 3 a b))) = words_ne 8 4 a b.
Proof. unfold same, word, words_ne. rewrite !drop_drop. rewrite !N.mul_0_r, !drop_0, orb_false_r. reflexivity. Qed.
Lemma xors_len i j : len (xors i j) = 8.
Proof. unfold xors. rewrite len_le. reflexivity. Qed.
Lemma xors_val i j : len i <= 8 -> len j <= 8 -> of_le (xors i j) = N.lxor (of_le i) (of_le j).
Proof.
  intros A B. unfold xors. apply of_le_le_small. change (256 ^ N.of_nat 8) with (2 ^ 64).
  assert (X : forall l, len l <= 8 -> of_le l < 2 ^ 64).
  { intros l L. eapply N.lt_le_trans; [apply of_le_bound|]. change (2 ^ 64) with (256 ^ 8). apply N.pow_le_mono_r; lia. }
  assert (Y : forall n, n < 2 ^ 64 <-> n / 2 ^ 64 = 0). { intros n. split; [apply N.div_small|]. intros H. apply N.div_small_iff; [discriminate|exact H]. }
  apply Y. rewrite <- N.shiftr_div_pow2, N.shiftr_lxor, !N.shiftr_div_pow2. rewrite (proj1 (Y _) (X i A)), (proj1 (Y _) (X j B)). reflexivity.
Qed.
Lemma word_len i a : len (word i a) <= 8.
Proof. unfold word. rewrite len_take. lia. Qed.
Lemma xor2 a : of_le (xors (word 0 a) (word 1 a)) = words_xor 2 a.
Proof. rewrite xors_val by apply word_len. unfold word, words_xor. rewrite N.mul_0_r, drop_0, N.lxor_0_r. reflexivity. Qed.
Lemma xor4 a : of_le (xors (word 0 a) (xors (word 1 a) (xors (word 2 a) (word 3 a)))) = words_xor 4 a.
Proof.
  rewrite !xors_val by (apply word_len || (rewrite xors_len; reflexivity)). unfold word, words_xor. rewrite !drop_drop. rewrite N.mul_0_r, drop_0, N.lxor_0_r. reflexivity.
Qed.
Lemma sees o n t a b r : type_called data_genv n = Some t -> operator data_genv (ev deep data_genv) o (XO t (VP a)) (XO t (VP b)) = Some (truth_val r) ->
  ask_oper data_genv o n (VP a) (VP b) = Some r.
Proof. intros A B. unfold ask_oper. rewrite A, B. reflexivity. Qed.
Lemma id_oper_lt k a b : len a = rsize k -> len b = rsize k -> forall m, operator data_genv (ev (S (S (S (S m)))) data_genv) CppText.Lt (XO (LId k) (VP a)) (XO (LId k) (VP b)) = Some (truth_val (lex_lt a b)).
Proof. intros A B m. destruct k; cbn [LId rsize] in *; [rewrite guid_lt|rewrite hash_lt]; rewrite (take_all a), (take_all b) by lia; reflexivity. Qed.
Lemma id_oper_eq k a b m : operator data_genv (ev (S (S (S (S (S (S (S (S m)))))))) data_genv) EqEq (XO (LId k) (VP a)) (XO (LId k) (VP b)) = Some (truth_val (id_eq k a b)).
Proof. destruct k; cbn [LId id_eq]; [apply op_prim; reflexivity|]. rewrite hash_eq, same_words. reflexivity. Qed.
Lemma id_oper_ne k a b m : operator data_genv (ev (S (S (S (S (S (S (S (S m)))))))) data_genv) BangEq (XO (LId k) (VP a)) (XO (LId k) (VP b)) = Some (truth_val (id_ne k a b)).
Proof. destruct k; cbn [LId id_ne]; [apply op_prim; reflexivity|]. rewrite hash_ne, differ_words. reflexivity. Qed.
Definition id_hash (k : rkind) (a : list byte) : N := match k with ERef => words_xor 2 a | PRef => words_xor 4 a end.
Lemma id_hashed k a m : exists w, hashed data_genv (ev (S (S (S (S (S (S m)))))) data_genv) (LId k) (XO (LId k) (VP a)) = Some (XO (LInt false 8) (VP w)) /\ of_le w = id_hash k a.
Proof. destruct k; cbn [LId id_hash]; [exists (xors (word 0 a) (word 1 a))|exists (xors (word 0 a) (xors (word 1 a) (xors (word 2 a) (word 3 a))))]; (split; [apply uuid_hash || apply hash_hash|apply xor2 || apply xor4]). Qed.
Lemma id_named k : type_called data_genv (id_name k) = Some (LId k).
Proof. destruct k; vm_compute; reflexivity. Qed.
Lemma ref_named k : type_called data_genv (ref_name k) = Some (LRef k).
Proof. destruct k; vm_compute; reflexivity. Qed.
Lemma named_oper o k (r : bool) a b x : In o [CppText.Lt; EqEq; BangEq] ->
  (forall m, operator data_genv (ev (S (S (S (S (S (S (S (S m)))))))) data_genv) o (XO (LId k) (VP a)) (XO (LId k) (VP b)) = Some (truth_val x)) ->
  ask_oper data_genv o (kind_name k r) (VP a) (VP b) = Some x.
Proof.
  intros O H. destruct deep_split as (m & D). destruct r; cbn [kind_name].
  - eapply sees; [apply ref_named|]. rewrite D. apply ref_oper; [exact O|]. exact (H (S (S m))).
  - eapply sees; [apply id_named|]. rewrite D. exact (H (S (S (S m)))).
Qed.
Lemma text_lt k r a b : len a = rsize k -> len b = rsize k -> ask_oper data_genv CppText.Lt (kind_name k r) (VP a) (VP b) = Some (lex_lt a b).
Proof. intros A B. apply named_oper; [left; reflexivity|]. intros m. apply id_oper_lt; assumption. Qed.
Lemma text_eq k r a b : ask_oper data_genv EqEq (kind_name k r) (VP a) (VP b) = Some (id_eq k a b).
Proof. apply named_oper; [right; left; reflexivity|]. intros m. apply id_oper_eq. Qed.
Lemma text_ne k r a b : ask_oper data_genv BangEq (kind_name k r) (VP a) (VP b) = Some (id_ne k a b).
Proof. apply named_oper; [right; right; left; reflexivity|]. intros m. apply id_oper_ne. Qed.
Lemma text_hash k r a : ask_hash data_genv (kind_name k r) (VP a) = Some (id_hash k a).
Proof.
  destruct deep_split as (m & D). unfold ask_hash. destruct r; cbn [kind_name].
  - rewrite ref_named. destruct (id_hashed k a (S (S (S (S m))))) as (w & H & E). rewrite D, (ref_hash _ _ _ _ H), E. reflexivity.
  - rewrite id_named. destruct (id_hashed k a (S (S (S (S (S m)))))) as (w & H & E). rewrite D, H, E. reflexivity.
Qed.
Lemma text_bool k a : ask_convert data_genv (ref_name k) "bool" (VP a) = Some (VB (ref_bool k a)).
Proof.
  destruct deep_split as (m & D). unfold ask_convert. rewrite ref_named. change (type_called data_genv "bool") with (Some LBool).
  rewrite D. rewrite (ref_truth k _ a (ref_bool k a)); [reflexivity|]. apply id_oper_ne.
Qed.
Lemma word_app (a r : list byte) : len a = 8 -> take 8 (a ++ r) = a /\ drop 8 (a ++ r) = r.
Proof. intros L. rewrite <- L. split; [apply take_len_app|apply drop_len_app]. Qed.
Lemma hash_words_2 a b : len a = 8 -> len b = 8 -> words_xor 2 (a ++ b) = N.lxor (weight a) (weight b).
Proof.
  intros A B. cbn [words_xor]. destruct (word_app a b A) as [-> ->]. rewrite (take_all b) by lia. rewrite N.lxor_0_r. reflexivity.
Qed.
Lemma hash_words_4 a b c d : len a = 8 -> len b = 8 -> len c = 8 -> len d = 8 ->
  words_xor 4 (a ++ b ++ c ++ d) = N.lxor (weight a) (N.lxor (weight b) (N.lxor (weight c) (weight d))).
Proof.
  intros A B C D. cbn [words_xor]. destruct (word_app a (b ++ c ++ d) A) as [-> ->]. destruct (word_app b (c ++ d) B) as [-> ->].
  destruct (word_app c d C) as [-> ->]. rewrite (take_all d) by lia. rewrite N.lxor_0_r. reflexivity.
Qed.
Lemma text_keys t a b : In t [TUuid; TEntityRef; THash; TPackageRef] -> val_ok t a -> val_ok t b ->
  ask_oper data_genv CppText.Lt (cpp_name t) a b = Some (key_lt t a b) /\ ask_oper data_genv EqEq (cpp_name t) a b = Some (key_eq t a b) /\
  ask_oper data_genv BangEq (cpp_name t) a b = Some (negb (key_eq t a b)) /\ ask_hash data_genv (cpp_name t) a = Some (key_hash t a).
Proof.
  intros T A B. destruct a as [|s|a]; try (exfalso; destruct T as [<-|[<-|[<-|[<-|[]]]]]; exact A). destruct b as [|s|b]; try (exfalso; destruct T as [<-|[<-|[<-|[<-|[]]]]]; exact B).
  assert (X : exists k r, cpp_name t = kind_name k r /\ len a = rsize k /\ len b = rsize k /\ key_lt t (VP a) (VP b) = lex_lt a b /\
     key_eq t (VP a) (VP b) = id_eq k a b /\ key_hash t (VP a) = id_hash k a).
  { destruct T as [<-|[<-|[<-|[<-|[]]]]]; [exists ERef, false|exists ERef, true|exists PRef, false|exists PRef, true]; (split; [reflexivity|]); (split; [exact A|]); (split; [exact B|]); repeat split. }
  destruct X as (k & r & -> & LA & LB & -> & -> & ->). split; [exact (text_lt k r a b LA LB)|]. split; [apply text_eq|]. split; [|apply text_hash].
  rewrite text_ne, id_ne_neg. reflexivity.
Qed.
