(** * GenRWEval: what the generated functions do. Proofs. *)
From Coq Require Import Strings.String Strings.Ascii.
From Verif Require Import Base Types EntityReader GenText CppText GenRW CppFun GenRWSpec GenRWAst.
Local Open Scope string_scope.
Local Open Scope list_scope.

Lemma tyeqb_refl t : tyeqb t t = true. Proof. apply String.eqb_refl. Qed.
Lemma tyeqb_ne t u : t <> u -> tyeqb t u = false. Proof. intros H. apply String.eqb_neq. exact H. Qed.

Section W.
Context {St : Type} (ty : string -> bool) (conv : string -> string -> option (val -> val)) (raw new : string -> val)
  (w1 : string -> string -> option (option val -> St -> res (bool * St)))
  (wn : string -> string -> option (option (list val) -> option (list N) -> St -> res (bool * St)))
  (r1 : string -> string -> option (bool -> val -> St -> res (rstat * val * St)))
  (rn : string -> string -> option (bool -> list val -> option (list N) -> St -> res (rstat * list val * option (list N) * St))).
Context (self : cty -> bool -> cval -> St -> O (bool * cval * St)).
Local Notation h := (Host St "Write" "dstream" ty conv raw new w1 wn r1 rn).
Ltac ev := repeat (progress (cbn -[tyeqb Nat.ltb]; rewrite ?tyeqb_refl)).
Ltac start T := intros; unfold run_spec;
  ev; match goal with H : ty T = true |- _ => rewrite H end; ev.
Lemma e_w_plain_none k V T v st : ty T = true ->
  run_spec h self (a_w_plain_none V T) k (CV v) st = omap (fun r => (fst r, CV v, snd r)) (instance (w1 V T) (fun w => w (Some v) st)).
Proof.
  start T. destruct (w1 V T) as [w|]; ev; [|reflexivity]. destruct (w (Some v) st) as [[b s]| |]; ev; reflexivity.
Qed.
Lemma e_w_plain_opt k V T o st : ty T = true ->
  run_spec h self (a_w_plain_opt V T) k (COpt o) st = omap (fun r => (fst r, COpt o, snd r)) (instance (w1 V T) (fun w => w o st)).
Proof.
  start T. destruct o as [v|]; ev; (destruct (w1 V T) as [w|]; ev; [|reflexivity]).
  - destruct (w (Some v) st) as [[b s]| |]; ev; reflexivity.
  - destruct (w None st) as [[b s]| |]; ev; reflexivity.
Qed.
Lemma e_w_plain_vec k V T l st : ty T = true ->
  run_spec h self (a_w_plain_vec V T) k (CVec l) st = omap (fun r => (fst r, CVec l, snd r)) (instance (wn V T) (fun w => w (Some l) None st)).
Proof.
  start T. destruct (wn V T) as [w|]; ev; [|reflexivity]. destruct (w (Some l) None st) as [[b s]| |]; ev; reflexivity.
Qed.
Lemma e_w_plain_optvec k V T o st : ty T = true ->
  run_spec h self (a_w_plain_optvec V T) k (COptVec o) st = omap (fun r => (fst r, COptVec o, snd r)) (instance (wn V T) (fun w => w o None st)).
Proof.
  start T. destruct o as [l|]; ev; (destruct (wn V T) as [w|]; ev; [|reflexivity]).
  - destruct (w (Some l) None st) as [[b s]| |]; ev; reflexivity.
  - destruct (w None None st) as [[b s]| |]; ev; reflexivity.
Qed.
Lemma e_w_plain_idx k V T l ix st : ty T = true ->
  run_spec h self (a_w_plain_idx V T) k (CIdx l ix) st
  = omap (fun r => (fst r, CIdx l ix, snd r)) (instance (wn V T) (fun w => w (Some l) (Some ix) st)).
Proof.
  start T. destruct (wn V T) as [w|]; ev; [|reflexivity]. destruct (w (Some l) (Some ix) st) as [[b s]| |]; ev; reflexivity.
Qed.
Lemma e_w_plain_optidx k V T o st : ty T = true ->
  run_spec h self (a_w_plain_optidx V T) k (COptIdx o) st
  = omap (fun r => (fst r, COptIdx o, snd r)) (instance (wn V T) (fun w => w (option_map fst o) (option_map snd o) st)).
Proof.
  start T. destruct o as [[l ix]|]; ev; (destruct (wn V T) as [w|]; ev; [|reflexivity]).
  - destruct (w (Some l) (Some ix) st) as [[b s]| |]; ev; reflexivity.
  - destruct (w None None st) as [[b s]| |]; ev; reflexivity.
Qed.

(** Types stored by converting them. *)
Context (T I : string) (f : val -> val) (Ty : ty T = true) (Iy : ty I = true) (Ne : tyeqb T I = false) (Cv : conv T I = Some f).
Lemma conv_all l : convert_all h T I l = Some (map f l).
Proof. induction l as [|v l IH]; cbn -[tyeqb]; [reflexivity|]. unfold convert. rewrite Ne. cbn. rewrite Cv, IH. reflexivity. Qed.
Local Notation ret c := (omap (fun r => (fst (fst r), c, snd r))).
Ltac go := repeat (progress (cbn -[tyeqb convert_all]; unfold put, store; cbn -[tyeqb convert_all]; rewrite ?tyeqb_refl, ?Ty, ?Iy, ?conv_all)).
Ltac done := match goal with |- context [self ?a ?b ?c ?d] => destruct (self a b c d) as [[[[? ?] ?]| |]|] end; go; reflexivity.
Lemma e_w_over_none k v st :
  run_spec h self (a_w_over_none T I) k (CV v) st = ret (CV v) (self (type_of I CtNone) true (CV (f v)) st).
Proof. start T. rewrite Iy. go. unfold convert. rewrite Ne. cbn [h_conv]. rewrite Cv. go. done. Qed.
Lemma e_w_over_opt k o st :
  run_spec h self (a_w_over_opt T I) k (COpt o) st = ret (COpt o) (self (type_of I CtOpt) false (COpt (option_map f o)) st).
Proof.
  start T. rewrite Iy. go. destruct o as [v|]; go; [|done]. unfold convert. rewrite Ne. cbn [h_conv]. rewrite Cv. go. done.
Qed.
Lemma e_w_over_vec k l st :
  run_spec h self (a_w_over_vec T I) k (CVec l) st = ret (CVec l) (self (type_of I CtVec) false (CVec (map f l)) st).
Proof. start T. rewrite Iy. go. done. Qed.
Lemma e_w_over_optvec k o st :
  run_spec h self (a_w_over_optvec T I) k (COptVec o) st = ret (COptVec o) (self (type_of I CtOptVec) false (COptVec (option_map (map f) o)) st).
Proof. start T. rewrite Iy. go. destruct o as [l|]; go; done. Qed.
Lemma e_w_over_idx k l ix st :
  run_spec h self (a_w_over_idx T I) k (CIdx l ix) st = ret (CIdx l ix) (self (type_of I CtIdx) false (CIdx (map f l) ix) st).
Proof. start T. rewrite Iy. go. done. Qed.
Lemma e_w_over_optidx k o st :
  run_spec h self (a_w_over_optidx T I) k (COptIdx o) st
  = ret (COptIdx o) (self (type_of I CtOptIdx) false (COptIdx (option_map (fun p => (map f (fst p), snd p)) o)) st).
Proof. start T. rewrite Iy. go. destruct o as [[l ix]|]; go; done. Qed.
End W.

Section R.
Context {St : Type} (ty : string -> bool) (conv : string -> string -> option (val -> val)) (raw new : string -> val)
  (w1 : string -> string -> option (option val -> St -> res (bool * St)))
  (wn : string -> string -> option (option (list val) -> option (list N) -> St -> res (bool * St)))
  (r1 : string -> string -> option (bool -> val -> St -> res (rstat * val * St)))
  (rn : string -> string -> option (bool -> list val -> option (list N) -> St -> res (rstat * list val * option (list N) * St))).
Context (self : cty -> bool -> cval -> St -> O (bool * cval * St)).
Local Notation h := (Host St "Read" "sstream" ty conv raw new w1 wn r1 rn).
Ltac go := repeat (progress (cbn -[tyeqb Nat.ltb]; unfold put, store; cbn -[tyeqb Nat.ltb]; rewrite ?tyeqb_refl)).
Ltac start T := intros; unfold run_spec; go; match goal with H : ty T = true |- _ => rewrite H end; go.
Lemma e_r_plain_none V T v st : ty T = true ->
  run_spec h self (a_r_plain_none V T) false (CV v) st
  = omap (fun r => let '(k, v1, s1) := r in (st_ok k, CV v1, s1)) (instance (r1 V T) (fun g => g false v st)).
Proof.
  start T. destruct (r1 V T) as [g|]; go; [|reflexivity]. destruct (g false v st) as [[[[] v1] s]| |]; go; reflexivity.
Qed.
Lemma e_r_plain_opt V T o st : ty T = true ->
  run_spec h self (a_r_plain_opt V T) false (COpt o) st
  = omap (fun r => let '(k, v1, s1) := r in (st_ok k, match k with SEmpty => COpt None | _ => COpt (Some v1) end, s1))
      (instance (r1 V T) (fun g => g true (new T) st)).
Proof.
  start T. destruct (r1 V T) as [g|]; go; [|reflexivity]. destruct (g true (new T) st) as [[[[] v1] s]| |]; go; reflexivity.
Qed.
Lemma e_r_plain_vec V A T l st : ty T = true ->
  run_spec h self (a_r_plain_vec V A T) false (CVec l) st
  = omap (fun r => let '(k, l1, _, s1) := r in (st_ok k, CVec l1, s1)) (instance (rn A T) (fun g => g false l None st)).
Proof.
  start T. destruct (rn A T) as [g|]; go; [|reflexivity]. destruct (g false l None st) as [[[[[] l1] ix] s]| |]; go; reflexivity.
Qed.
Lemma e_r_plain_optvec V A T o st : ty T = true ->
  run_spec h self (a_r_plain_optvec V A T) false (COptVec o) st
  = omap (fun r => let '(k, l1, _, s1) := r in (st_ok k, match k with SEmpty => COptVec None | _ => COptVec (Some l1) end, s1))
      (instance (rn A T) (fun g => g true [] None st)).
Proof.
  start T. destruct (rn A T) as [g|]; go; [|reflexivity]. destruct (g true [] None st) as [[[[[] l1] ix] s]| |]; go; reflexivity.
Qed.
Lemma e_r_plain_idx V A T l ix st : ty T = true ->
  run_spec h self (a_r_plain_idx V A T) false (CIdx l ix) st
  = omap (fun r => let '(k, l1, ix1, s1) := r in (st_ok k, CIdx l1 (ix_or_nil ix1), s1)) (instance (rn A T) (fun g => g false l (Some ix) st)).
Proof.
  start T. destruct (rn A T) as [g|]; go; [|reflexivity]. destruct (g false l (Some ix) st) as [[[[[] l1] ix1] s]| |]; go; reflexivity.
Qed.
Lemma e_r_plain_optidx V A T o st : ty T = true ->
  run_spec h self (a_r_plain_optidx V A T) false (COptIdx o) st
  = omap (fun r => let '(k, l1, ix1, s1) := r in
                   (st_ok k, match k with SEmpty => COptIdx None | _ => COptIdx (Some (l1, ix_or_nil ix1)) end, s1))
      (instance (rn A T) (fun g => g true [] (Some []) st)).
Proof.
  start T. destruct (rn A T) as [g|]; go; [|reflexivity]. destruct (g true [] (Some []) st) as [[[[[] l1] ix1] s]| |]; go; reflexivity.
Qed.

(** Types stored by converting them. *)
Lemma skipn_nth {A} (l : list A) n v : nth_error l n = Some v -> skipn n l = v :: skipn (S n) l.
Proof.
  revert n. induction l as [|a l IH]; intros [|n] H; cbn in H |- *; try discriminate; [congruence|]. exact (IH n H).
Qed.
Context (T I : string) (f : val -> val) (Ty : ty T = true) (Iy : ty I = true) (Ne : tyeqb I T = false) (Cv : conv I T = Some f).
(** The loop that converts the items one by one. *)
Lemma loop_ok body i bound (E : nat -> list val -> env) (l : list val) (st : St) :
  (forall n m d, set_var i (BVal (VNum n)) (E m d) = E n d) ->
  (forall n d, eval h self bound (E n d, st) = oret (VNum (length l), (E n d, st))) ->
  (forall n v d, nth_error l n = Some v -> body (E n d, st) = oret (None, (E n (d ++ [f v]), st))) ->
  forall fuel n m d, (n + fuel = length l)%nat ->
  loop h self body i bound fuel n (E m d, st) = oret (None, (E (length l) (d ++ map f (skipn n l)), st)).
Proof.
  intros H1 H2 H3. induction fuel as [|k IH]; intros n m d L; cbn -[Nat.ltb]; rewrite H1, H2; cbn -[Nat.ltb].
  - replace (Nat.ltb n (length l)) with false by (symmetry; apply Nat.ltb_ge; lia).
    rewrite skipn_all2 by lia. cbn. rewrite app_nil_r. replace n with (length l) by lia. reflexivity.
  - replace (Nat.ltb n (length l)) with true by (symmetry; apply Nat.ltb_lt; lia).
    destruct (nth_error l n) as [v|] eqn:Ev; [|apply nth_error_None in Ev; lia].
    rewrite (H3 _ _ _ Ev). cbn. rewrite IH by lia. rewrite (skipn_nth l n v Ev). cbn [map]. rewrite <- app_assoc. reflexivity.
Qed.
Lemma conv_one v : convert h I T v = Some (f v).
Proof. unfold convert. rewrite Ne. cbn [h_conv]. rewrite Cv. reflexivity. Qed.
Lemma conv_same v : convert h T T v = Some v.
Proof. unfold convert. rewrite tyeqb_refl. reflexivity. Qed.
Definition over (d : cval) (o : O (bool * cval * St)) : O (bool * cval * St) :=
  omap (fun r => let '(ok, tmp, s1) := r in if ok : bool then (true, taken_over f d tmp, s1) else (false, d, s1)) o.
Ltac gov := repeat (progress (cbn -[tyeqb Nat.ltb convert]; unfold put, store; cbn -[tyeqb Nat.ltb convert]; rewrite ?tyeqb_refl, ?Iy, ?Ty, ?conv_one, ?conv_same)).
Context (K : forall c d s b c1 s1, self (type_of I c) false d s = oret (b, c1, s1) -> cval_ctype d = c -> cval_ctype c1 = c).
Ltac ask c d st tmp s1 :=
  let K1 := fresh "K1" in pose proof (K c d st) as K1; cbn [type_of] in K1;
  match goal with |- context [self ?x ?b ?z ?y] => destruct (self x b z y) as [[[[[] tmp] s1]| |]|] end; gov; try reflexivity;
  specialize (K1 _ _ _ eq_refl eq_refl); destruct tmp; try discriminate K1; clear K1; gov.
Lemma e_r_over_none v st :
  run_spec h self (a_r_over_none T I) false (CV v) st = over (CV v) (self (type_of I CtNone) false (CV (raw I)) st).
Proof. start T. rewrite Iy. gov. ask CtNone (CV (raw I)) st tmp s1. reflexivity. Qed.
Lemma e_r_over_opt o st :
  run_spec h self (a_r_over_opt T I) false (COpt o) st = over (COpt o) (self (type_of I CtOpt) false (COpt None) st).
Proof. start T. rewrite Iy. gov. ask CtOpt (COpt None) st tmp s1. destruct o0; gov; reflexivity. Qed.
Ltac run_loop Env l st :=
  match goal with |- context [loop ?hh ?se ?body ?i ?bound ?fuel 0%nat ?s] =>
    let L := fresh "L" in
    assert (L : loop hh se body i bound fuel 0 (Env 0%nat (fst (st)), snd st) = oret (None, (Env (length l) (fst st ++ map f l), snd st)));
    [ apply (loop_ok body i bound Env l (snd st)); [reflexivity | intros; gov; reflexivity
       | intros n v d Hn; gov; rewrite Hn; gov; reflexivity | reflexivity]
    | cbn [fst snd] in L; rewrite L; clear L ]
  end.
Lemma e_r_over_vec l st :
  run_spec h self (a_r_over_vec T I) false (CVec l) st = over (CVec l) (self (type_of I CtVec) false (CVec []) st).
Proof.
  start T. rewrite Iy. gov. ask CtVec (CVec []) st tmp s1.
  run_loop (fun n d => [("i", BVal (VNum n)); ("tmp_variable", BObj false I (CVec l0)); ("dest_variable", BObj false T (CVec d));
                        ("key_length", BVal VLen); ("key", BVal VKey)]) l0 (l, s1).
  gov. reflexivity.
Qed.
Lemma e_r_over_optvec o st :
  run_spec h self (a_r_over_optvec T I) false (COptVec o) st = over (COptVec o) (self (type_of I CtOptVec) false (COptVec None) st).
Proof.
  start T. rewrite Iy. gov. ask CtOptVec (COptVec None) st tmp s1. destruct o0 as [l|]; gov; [|reflexivity].
  run_loop (fun n d => [("i", BVal (VNum n)); ("tmp_variable", BObj false I (COptVec (Some l))); ("dest_variable", BObj false T (COptVec (Some d)));
                        ("key_length", BVal VLen); ("key", BVal VKey)]) l (@nil val, s1).
  gov. reflexivity.
Qed.
Lemma e_r_over_idx l ix st :
  run_spec h self (a_r_over_idx T I) false (CIdx l ix) st = over (CIdx l ix) (self (type_of I CtIdx) false (CIdx [] []) st).
Proof.
  start T. rewrite Iy. gov. ask CtIdx (CIdx [] []) st tmp s1.
  run_loop (fun n d => [("i", BVal (VNum n)); ("tmp_variable", BObj false I (CIdx l0 [])); ("dest_variable", BObj false T (CIdx d ix0));
                        ("key_length", BVal VLen); ("key", BVal VKey)]) l0 (l, s1).
  gov. reflexivity.
Qed.
Lemma e_r_over_optidx o st :
  run_spec h self (a_r_over_optidx T I) false (COptIdx o) st = over (COptIdx o) (self (type_of I CtOptIdx) false (COptIdx None) st).
Proof.
  start T. rewrite Iy. gov. ask CtOptIdx (COptIdx None) st tmp s1. destruct o0 as [[l ix]|]; gov; [|reflexivity].
  run_loop (fun n d => [("i", BVal (VNum n)); ("tmp_variable", BObj false I (COptIdx (Some (l, [])))); ("dest_variable", BObj false T (COptIdx (Some (d, ix))));
                        ("key_length", BVal VLen); ("key", BVal VKey)]) l (@nil val, s1).
  gov. reflexivity.
Qed.
End R.
