(** * Reading objects of the class section_object that are deeper than the stack. Proofs. *)
From Verif Require Import Base Bytes BytesFacts Values ValueEq ValueEqSpec ValueEqFacts Streams FileSpec Types Format EntityWriter EntityReader EntityWriterFacts Items ItemSpec EntityProps
  Sections Documents DocSpec SectionFacts SectionReadFacts SectionTheorems TestSections TestSectionsSpec TestSectionsFacts.
Local Open Scope N_scope.

Section F.
Context (f : fsize).
Definition deep (o : sobj) : Prop := forall d e h st st', (d < depth o)%nat -> fit (e_lim e) o ->
  read_nodes e h (tmpl f o) st = Done (true, doc f o, st') -> read f d e h st = Undef.
Definition deep_v (v : ovecs) : Prop := forall d e h hc i st st', (d < depth_v v)%nat -> fit_v (e_lim e) v ->
  read_elems e h hc i (tmpl_v f v) st = Done (true, doc_v f v, st') -> loop (read f d e) h hc (N.to_nat (vsize v)) i st = Undef.

(** The array is found and its elements are read. *)
Lemma arr_found e h key null ix ix' v st st' : null = true \/ null = false ->
  read_node e h (NArray key ix (tmpl_v f v)) st = Done (true, NArray key ix' (doc_v f v), st') ->
  exists hc q1 q2, r_begin_arr e h key null (match ix with Some _ => Some [] | None => None end) st = Done (Some hc, vsize v, true, ix', q1) /\
    read_elems e h hc 0 (tmpl_v f v) q1 = Done (true, doc_v f v, q2) /\ r_end_arr h (Some hc) q2 = Done (true, st').
Proof.
  intros Hn H.
  change (read_node e h (NArray key ix (tmpl_v f v)) st) with (
    do r <- r_begin_arr e h key true (match ix with Some _ => Some [] | None => None end) st;
    let '(c, count, ok, ix', st1) := r in
    match c with
    | None => Done (ok, NNullArray key, st1)
    | Some hc =>
      if negb (count =? slen (tmpl_v f v)) then Done (false, NNullArray key, st1) else
      do r2 <- read_elems e h hc 0 (tmpl_v f v) st1; let '(ok2, elems', st2) := r2 in
      if negb ok2 then Done (false, NArray key ix' elems', st2) else
      do r3 <- r_end_arr h (Some hc) st2; let '(ok3, st3) := r3 in Done (ok3, NArray key ix' elems', st3)
    end) in H.
  destruct (r_begin_arr e h key true (match ix with Some _ => Some [] | None => None end) st) as [[[[[[hc|] n] ok] ix1] q1]| |] eqn:Eb; cbn [bind] in H; try discriminate.
  destruct (N.eqb_spec n (slen (tmpl_v f v))) as [->|]; cbn [negb] in H; [|discriminate]. rewrite vsize_tmpl in *.
  destruct (read_elems e h hc 0 (tmpl_v f v) q1) as [[[[] y] q2]| |] eqn:Er; cbn [bind negb] in H; try discriminate.
  destruct (r_end_arr h (Some hc) q2) as [[o q3]| |] eqn:Ee; cbn [bind] in H; try discriminate. injection H as -> -> -> ->.
  exists hc, q1, q2. destruct (not_null _ _ _ _ _ _ _ _ _ _ Eb) as (Eb' & ->). split; [destruct Hn as [->| ->]; assumption|]. auto.
Qed.

Lemma deep_all : (forall o, deep o) /\ (forall x, match x with ONull => True | OSome o => deep o end) /\
  (forall v, deep_v v) /\ (forall a, match a with ANone => True | ASome _ v => deep_v v end).
Proof.
  pose proof (r_all f) as (RO & _ & RV & _).
  apply sobj_all_ind; [|exact Logic.I|auto|..].
  - intros name tf sub IHs vec IHv arr IHa d e h st st' D Fi H. cbn [doc tmpl] in H.
    apply r_node_cons in H. destruct H as (s1 & E1 & H). apply r_node_cons in H. destruct H as (s2 & E2 & H).
    apply r_node_cons in H. destruct H as (s3 & E3 & H). apply r_node_cons in H. destruct H as (s4 & E4 & H).
    apply r_node_cons in H. destruct H as (s5 & E5 & H). cbn [read_nodes] in H. injection H as ->.
    cbn [depth] in D. destruct d as [|d]; [reflexivity|]. destruct Fi as (Fs & Lv & Fv & Fa). rewrite read_eq.
    unfold fresh_name, fresh_transform in E1, E2. cbn [read_node i_type i_key i_val] in E1, E2.
    destruct (r_read e h TString k_name (COpt None) st) as [[[ok1 n] q1]| |] eqn:R1; cbn [bind] in E1 |- *; try discriminate. injection E1 as -> -> ->. cbn [negb].
    destruct (r_read e h (TMat D4 f) k_transform (CV (VP (new_transform f))) s1) as [[[ok2 t] q2]| |] eqn:R2; cbn [bind] in E2 |- *; try discriminate. injection E2 as -> -> ->. cbn [negb pod].
    assert (X3 : exists c q3, r_begin e h k_sub true s2 = Done (c, true, q3) /\
       match c, sub with
       | None, ONull => q3 = s3
       | Some hc, OSome x => exists q4, read_nodes e hc (tmpl f x) q3 = Done (true, doc f x, q4) /\ r_end h (Some hc) q4 = Done (true, s3)
       | _, _ => False
       end).
    { change ((do r <- r_begin e h k_sub true s2; let '(c, ok, st1) := r in match c with None => Done (ok, NNullSection k_sub, st1) | Some hc =>
         do r2 <- read_nodes e hc (match sub with ONull => Nil | OSome x => tmpl f x end) st1; let '(ok2, body', st2) := r2 in
         if negb ok2 then Done (false, NSection k_sub body', st2) else
         do r3 <- r_end h (Some hc) st2; let '(ok3, st3) := r3 in Done (ok3, NSection k_sub body', st3) end) =
         Done (true, match sub with ONull => NNullSection k_sub | OSome x => NSection k_sub (doc f x) end, s3)) in E3.
      destruct (r_begin e h k_sub true s2) as [[[[hc|] ok] q3]| |] eqn:Eb; cbn [bind] in E3; try discriminate.
      - destruct (read_nodes e hc (match sub with ONull => Nil | OSome x => tmpl f x end) q3) as [[[[] y] q4]| |] eqn:Er; cbn [bind negb] in E3; try discriminate.
        destruct (r_end h (Some hc) q4) as [[o q5]| |] eqn:Ee; cbn [bind] in E3; try discriminate.
        destruct sub as [|x]; [discriminate|]. injection E3 as -> -> ->.
        exists (Some hc), q3. split.
        + f_equal. f_equal. f_equal. revert Eb. unfold r_begin. destruct (split_at rf_id h (r_chain s2)) as [[[a g] [|]]|]; try discriminate.
          destruct (begin_read e vt_subsection k_sub (r_stream s2)) as [[endp t]| |]; cbn [bind]; try discriminate.
          repeat match goal with |- context [if ?b then _ else _] => destruct b end; try discriminate; congruence.
        + exists q4. auto.
      - destruct sub as [|x]; [|discriminate]. injection E3 as -> ->. exists None, s3. auto. }
    destruct X3 as (c & q3 & B3 & X3). rewrite B3. cbn [bind negb].
    destruct (Nat.le_gt_cases (match sub with ONull => O | OSome x => depth x end) d) as [Ds|Ds].
    2:{ destruct sub as [|x]; [lia|]. destruct c as [hc|]; [|contradiction]. destruct X3 as (q4 & Er & Ee). rewrite (IHs d e hc q3 q4 Ds Fs Er). reflexivity. }
    assert (X4 : match c with None => Done (true, ONull, q3) | Some hc =>
               do q <- read f d e hc q3; let '(ok, x, q1) := q in
               if negb ok then Done (false, OSome x, q1) else
               do q2 <- r_end h (Some hc) q1; let '(ok2, q3) := q2 in Done (ok2, OSome x, q3) end = Done (true, sub, s3)).
    { destruct c as [hc|], sub as [|x]; try contradiction; [|rewrite X3; reflexivity]. destruct X3 as (q4 & Er & Ee).
      rewrite (RO x d e hc q3 q4 Ds Fs Er). cbn [bind negb]. rewrite Ee. reflexivity. }
    rewrite X4. cbn [bind negb].
    destruct (arr_found e h k_vec false None None vec s3 s4 ltac:(auto) E4) as (hc & p1 & p2 & A1 & A2 & A3).
    rewrite A1. cbn [bind negb]. replace (e_lim e <? 8 * vsize vec) with false by (symmetry; apply N.ltb_ge; exact Lv).
    destruct (Nat.le_gt_cases (depth_v vec) d) as [Dv|Dv]; [|rewrite (IHv d e h hc 0 p1 p2 Dv Fv A2); reflexivity].
    rewrite (RV vec d e h hc 0 p1 p2 Dv Fv A2). cbn [bind negb]. rewrite A3. cbn [bind negb].
    destruct arr as [|ix v]; [lia|]. destruct Fa as (La & Fa).
    destruct (arr_found e h k_arr true (Some []) (Some ix) v s4 st' ltac:(auto) E5) as (hc2 & t1 & t2 & B1 & B2 & B4).
    rewrite B1. cbn [bind negb]. replace (e_lim e <? 8 * vsize v) with false by (symmetry; apply N.ltb_ge; exact La).
    rewrite (IHa d e h hc2 0 t1 t2 ltac:(lia) Fa B2). reflexivity.
  - intros d e h hc i st st' D. cbn in D. lia.
  - intros x IHx v IHv d e h hc i st st' D Fi H. cbn [doc_v tmpl_v] in H. cbn [depth_v fit_v] in D, Fi. destruct Fi as (Fx & Fv).
    change ((do r1 <- r_begin_in h (Some hc) i true st; let '(ok, has_data, st1) := r1 in
      if negb ok then Done (false, SNil, st1) else
      do r2 <- (if has_data : bool then read_nodes e hc (match x with ONull => Cons fresh_name Nil | OSome o => tmpl f o end) st1 else Done (true, Nil, st1));
      let '(ok2, body', st2) := r2 in
      if negb ok2 then Done (false, SCons body' SNil, st2) else
      do r3 <- r_end_in h (Some hc) i st2; let '(ok3, st3) := r3 in
      if negb ok3 then Done (false, SCons body' SNil, st3) else
      do r4 <- read_elems e h hc (i + 1) (tmpl_v f v) st3; let '(ok4, r', st4) := r4 in Done (ok4, SCons body' r', st4)) =
      Done (true, SCons (match x with ONull => Nil | OSome o => doc f o end) (doc_v f v), st')) in H.
    cbn [vsize]. rewrite N2Nat.inj_add. change (N.to_nat 1) with 1%nat. rewrite Nat.add_1_r. cbn [loop].
    destruct (r_begin_in h (Some hc) i true st) as [[[[] has] s1]| |]; cbn [bind negb] in *; try discriminate.
    match type of H with context [if has then ?a else ?b] => set (body := if has then a else b) in * end.
    destruct body as [[[[] y] s2]| |] eqn:Eb; cbn [bind negb] in H; try discriminate. subst body.
    destruct (r_end_in h (Some hc) i s2) as [[[] s3]| |] eqn:Ee; cbn [bind negb] in H; try discriminate.
    destruct (read_elems e h hc (i + 1) (tmpl_v f v) s3) as [[[o z] s4]| |] eqn:Er; cbn [bind] in H; try discriminate. injection H as -> -> -> ->.
    destruct (Nat.le_gt_cases (match x with ONull => O | OSome o => depth o end) d) as [Dx|Dx].
    2:{ destruct x as [|ox]; [lia|]. destruct has; [|destruct ox; discriminate Eb]. rewrite (IHx d e hc s1 s2 Dx Fx Eb). reflexivity. }
    assert (X : (if has then do q <- read f d e hc s1; let '(ok, o, q1) := q in Done (ok, OSome o, q1) else Done (true, ONull, s1)) = Done (true, x, s2)).
    { destruct has; [|destruct x as [|[]]; [injection Eb as ->; reflexivity|discriminate]]. destruct x as [|ox].
      - exfalso. cbn [read_nodes] in Eb. destruct (read_node e hc fresh_name s1) as [[[[] ?] ?]| |]; cbn in Eb; discriminate.
      - rewrite (RO ox d e hc s1 s2 Dx Fx Eb). reflexivity. }
    rewrite X. cbn [bind negb]. rewrite Ee. cbn [bind negb]. fold (loop (read f d e) h hc).
    rewrite (IHv d e h hc (i + 1) s3 st'); [reflexivity|lia|exact Fv|exact Er].
  - exact Logic.I.
  - intros ix v IH. exact IH.
Qed.

Lemma t_sections_deep o init lim fl : obj_ok f o -> room init lim (len (nodes_bytes fl (doc f o))) ->
  exists s0 st, fresh init lim fl = Done s0 /\ write f 0 o (w_open s0) = Done (true, st) /\
    ws_data (w_stream st) = nodes_bytes fl (doc f o) /\
    forall e d post, (d < depth o)%nat -> read_room e (ws_pos (w_stream st)) (ws_pos (w_stream st) + len post) ->
      read f d e 0 (r_open (RS (ws_data (w_stream st) ++ post) 0 fl)) = Undef.
Proof.
  intros Ho Hr. destruct (proj1 (doc_legal f) o Ho) as (Dk & Df & Dm).
  destruct (t_write_doc init lim fl (doc f o) Dk Hr) as (s0 & st & E0 & E & Hd & Hp).
  destruct (t_doc_full init lim fl (doc f o) Dk Df Hr) as (s0' & st' & E0' & E' & C). rewrite E0 in E0'. injection E0' as <-. rewrite E in E'. injection E' as <-.
  exists s0, st. split; [exact E0|]. split; [exact (proj1 (w_sim f) o _ _ _ E)|]. split; [exact Hd|].
  intros e d post D RR. destruct (C e (tmpl f o) post Dm RR) as (st2 & R & S).
  refine (proj1 deep_all o d e 0 _ _ D _ R). apply (proj1 (fits f fl (e_lim e))). destruct RR as (RR & _). rewrite Hp in RR. lia.
Qed.

(** A chain of objects in each other. *)
Fixpoint chain (n : nat) : sobj := match n with O => new_obj f | S m => SObj None (new_transform f) (OSome (chain m)) VNil ANone end.
Lemma chain_ok n : obj_ok f (chain n).
Proof.
  assert (V : val_ok (TMat D4 f) (VP (new_transform f))) by (destruct f; vm_compute; reflexivity).
  induction n as [|n IH]; cbn [chain obj_ok new_obj]; repeat split; assumption.
Qed.
Lemma chain_depth n : depth (chain n) = S n.
Proof. induction n as [|n IH]; [reflexivity|]. cbn [chain depth depth_v]. rewrite IH. lia. Qed.
Definition chain_least : N := match f with F32 => 156 | F64 => 220 end.
Lemma chain_size fl n : len (nodes_bytes fl (doc f (chain n))) = chain_least * (N.of_nat n + 1).
Proof.
  induction n as [|n IH]; [unfold chain_least; destruct f, fl; vm_compute; reflexivity|].
  assert (X : forall b, len (nodes_bytes fl (Cons (NItem (Item TString k_name (COpt None))) (Cons (NItem (Item (TMat D4 f) k_transform (CV (VP (new_transform f)))))
    (Cons (NSection k_sub b) (Cons (NArray k_vec None SNil) (Cons (NNullArray k_arr) Nil)))))) = chain_least + len (nodes_bytes fl b)).
  { intros b. assert (C : forall x r, len (nodes_bytes fl (Cons x r)) = len (node_bytes fl x) + len (nodes_bytes fl r)) by (intros; apply len_app).
    rewrite !C. assert (S : len (node_bytes fl (NSection k_sub b)) = 13 + len (nodes_bytes fl b)) by (cbn [node_bytes]; rewrite len_large_block; reflexivity).
    rewrite S. set (z := len (nodes_bytes fl b)). clearbody z. clear S C IH.
    match goal with |- ?x1 + (?x2 + (13 + z + (?x3 + (?x4 + ?x5)))) = _ =>
      assert (E : x1 + (x2 + (13 + (x3 + (x4 + x5)))) = chain_least) by (unfold chain_least; destruct f, fl; vm_compute; reflexivity) end.
    lia. }
  cbn [chain doc doc_v]. rewrite X, IH. lia.
Qed.
End F.
