(** * The recursive class section_object. Proofs. *)
From Verif Require Import Base Bytes BytesFacts Values ValueEq ValueEqSpec ValueEqFacts Streams FileSpec Types Format EntityWriter EntityReader EntityWriterFacts Items ItemSpec EntityProps
  Sections Documents DocSpec SectionFacts SectionReadFacts SectionTheorems TestSections TestSectionsSpec.
Local Open Scope N_scope.

Scheme sobj_mind := Induction for sobj Sort Prop with osobj_mind := Induction for osobj Sort Prop
  with ovecs_mind := Induction for ovecs Sort Prop with oarr_mind := Induction for oarr Sort Prop.
Combined Scheme sobj_all_ind from sobj_mind, osobj_mind, ovecs_mind, oarr_mind.

Section F.
Context (f : fsize).
Lemma vsize_slen v : slen (doc_v f v) = vsize v.
Proof. induction v as [|x v IH]; cbn [doc_v slen vsize]; [reflexivity|]. rewrite IH. reflexivity. Qed.

Lemma write_eq h name transform sub vec arr st : write f h (SObj name transform sub vec arr) st =
    do r1 <- w_write h TString k_name (v_name name) st; let '(ok1, st1) := r1 in
    if negb ok1 then Done (false, st1) else
    do r2 <- w_write h (TMat D4 f) k_transform (CV (VP transform)) st1; let '(ok2, st2) := r2 in
    if negb ok2 then Done (false, st2) else
    do r3 <- match sub with
             | OSome x =>
               do q <- w_begin h k_sub st2; let '(c, q1) := q in
               match c with
               | None => Done (false, q1)
               | Some hc => do q2 <- write f hc x q1; let '(ok, q3) := q2 in
                            if negb ok then Done (false, q3) else w_end h (Some hc) q3
               end
             | ONull => do q <- w_null h k_sub st2; let '(_, q1) := q in Done (true, q1)
             end; let '(ok3, st3) := r3 in
    if negb ok3 then Done (false, st3) else
    do q <- w_begin_arr h k_vec (vsize vec) None st3; let '(c, st4) := q in
    match c with
    | None => Done (false, st4)
    | Some hc =>
      do q2 <- write_v f h hc 0 vec st4; let '(ok5, st5) := q2 in
      if negb ok5 then Done (false, st5) else
      do q3 <- w_end_arr h (Some hc) st5; let '(ok6, st6) := q3 in
      if negb ok6 then Done (false, st6) else
      match arr with
      | ASome ix v =>
        do p <- w_begin_arr h k_arr (vsize v) (Some ix) st6; let '(c2, p1) := p in
        match c2 with
        | None => Done (false, p1)
        | Some hc2 => do p2 <- write_v f h hc2 0 v p1; let '(ok, p3) := p2 in
                      if negb ok then Done (false, p3) else w_end_arr h (Some hc2) p3
        end
      | ANone => w_null_arr h k_arr st6
      end
    end.
Proof. reflexivity. Qed.
Lemma write_v_eq h hc i x r st : write_v f h hc i (VCons x r) st =
    do r1 <- w_begin_in h (Some hc) i st; let '(ok, st1) := r1 in
    if negb ok then Done (false, st1) else
    do r2 <- match x with OSome o => write f hc o st1 | ONull => Done (true, st1) end; let '(ok2, st2) := r2 in
    if negb ok2 then Done (false, st2) else
    do r3 <- w_end_in h (Some hc) i st2; let '(ok3, st3) := r3 in
    if negb ok3 then Done (false, st3) else write_v f h hc (i + 1) r st3.
Proof. reflexivity. Qed.

(** ** Writing *)
Definition w_sim_v (v : ovecs) : Prop := forall h hc i st st', write_elems h hc i (doc_v f v) st = Done (true, st') -> write_v f h hc i v st = Done (true, st').
Lemma w_node_cons h n l st st' : write_nodes h (Cons n l) st = Done (true, st') ->
  exists st1, write_node h n st = Done (true, st1) /\ write_nodes h l st1 = Done (true, st').
Proof.
  change (write_nodes h (Cons n l) st) with (do r1 <- write_node h n st; let '(ok, st1) := r1 in if ok then write_nodes h l st1 else Done (false, st1)).
  destruct (write_node h n st) as [[[] st1]| |]; cbn [bind]; try discriminate. eauto.
Qed.
Lemma w_sim : (forall o h st st', write_nodes h (doc f o) st = Done (true, st') -> write f h o st = Done (true, st')) /\
  (forall x, match x with ONull => True | OSome o => forall h st st', write_nodes h (doc f o) st = Done (true, st') -> write f h o st = Done (true, st') end) /\
  (forall v, w_sim_v v) /\ (forall a, match a with ANone => True | ASome _ v => w_sim_v v end).
Proof.
  apply sobj_all_ind; [|exact Logic.I|auto|..].
  - intros name tf sub IHs vec IHv arr IHa h st st' H. cbn [doc] in H.
    apply w_node_cons in H. destruct H as (s1 & E1 & H). apply w_node_cons in H. destruct H as (s2 & E2 & H).
    apply w_node_cons in H. destruct H as (s3 & E3 & H). apply w_node_cons in H. destruct H as (s4 & E4 & H).
    apply w_node_cons in H. destruct H as (s5 & E5 & H). cbn [write_nodes] in H. injection H as ->.
    rewrite write_eq. cbn [write_node i_type i_key i_val] in E1, E2. unfold v_name. rewrite E1. cbn [bind negb]. rewrite E2. cbn [bind negb].
    assert (X3 : match sub with
             | OSome x => do q <- w_begin h k_sub s2; let '(c, q1) := q in
               match c with
               | None => Done (false, q1)
               | Some hc => do q2 <- write f hc x q1; let '(ok, q3) := q2 in if negb ok then Done (false, q3) else w_end h (Some hc) q3
               end
             | ONull => do q <- w_null h k_sub s2; let '(_, q1) := q in Done (true, q1)
             end = Done (true, s3)).
    { destruct sub as [|x].
      - cbn [write_node] in E3. rewrite E3. reflexivity.
      - change ((do r <- w_begin h k_sub s2; let '(c, st1) := r in match c with None => Done (false, st1) | Some hc =>
           do r2 <- write_nodes hc (doc f x) st1; let '(ok, st2) := r2 in if ok then w_end h (Some hc) st2 else Done (false, st2) end) = Done (true, s3)) in E3.
        destruct (w_begin h k_sub s2) as [[[hc|] q1]| |]; cbn [bind] in *; try discriminate.
        destruct (write_nodes hc (doc f x) q1) as [[[] q2]| |] eqn:Ew; cbn [bind] in E3; try discriminate.
        rewrite (IHs _ _ _ Ew). cbn [bind negb]. exact E3. }
    rewrite X3. cbn [bind negb].
    assert (XA : forall key ix v q q', w_sim_v v -> write_node h (NArray key ix (doc_v f v)) q = Done (true, q') ->
      exists hc q1 q2, w_begin_arr h key (vsize v) ix q = Done (Some hc, q1) /\ write_v f h hc 0 v q1 = Done (true, q2) /\ w_end_arr h (Some hc) q2 = Done (true, q')).
    { intros key ix v q q' IH Hw. cbn [write_node] in Hw. rewrite vsize_slen in Hw.
      destruct (w_begin_arr h key (vsize v) ix q) as [[[hc|] q1]| |]; cbn [bind] in *; try discriminate.
      match type of Hw with bind ?t _ = _ => change t with (write_elems h hc 0 (doc_v f v) q1) in Hw; destruct (write_elems h hc 0 (doc_v f v) q1) as [[[] q2]| |] eqn:Ew end; cbn [bind] in Hw; try discriminate.
      exists hc, q1, q2. split; [reflexivity|]. split; [exact (IH _ _ _ _ _ Ew)|exact Hw]. }
    destruct (XA _ _ _ _ _ IHv E4) as (hc & q1 & q2 & A1 & A2 & A3). rewrite A1. cbn [bind]. rewrite A2. cbn [bind negb]. rewrite A3. cbn [bind negb].
    destruct arr as [|ix v].
    + exact E5.
    + destruct (XA _ _ _ _ _ IHa E5) as (hc2 & p1 & p2 & B1 & B2 & B3). rewrite B1. cbn [bind]. rewrite B2. cbn [bind negb]. exact B3.
  - intros h hc i st st' H. exact H.
  - intros x IHx v IHv h hc i st st' H. cbn [doc_v] in H.
    change ((do r1 <- w_begin_in h (Some hc) i st; let '(ok, st1) := r1 in
      if negb ok then Done (false, st1) else
      do r2 <- write_nodes hc (match x with ONull => Nil | OSome o => doc f o end) st1; let '(ok2, st2) := r2 in
      if negb ok2 then Done (false, st2) else
      do r3 <- w_end_in h (Some hc) i st2; let '(ok3, st3) := r3 in
      if ok3 then write_elems h hc (i + 1) (doc_v f v) st3 else Done (false, st3)) = Done (true, st')) in H.
    rewrite write_v_eq. destruct (w_begin_in h (Some hc) i st) as [[[] s1]| |]; cbn [bind negb] in *; try discriminate.
    destruct (write_nodes hc (match x with ONull => Nil | OSome o => doc f o end) s1) as [[[] s2]| |] eqn:Ew; cbn [bind negb] in H; try discriminate.
    assert (X : match x with OSome o => write f hc o s1 | ONull => Done (true, s1) end = Done (true, s2)).
    { destruct x as [|o]; [exact Ew|exact (IHx _ _ _ Ew)]. }
    rewrite X. cbn [bind negb]. destruct (w_end_in h (Some hc) i s2) as [[[] s3]| |]; cbn [bind negb] in *; try discriminate. exact (IHv _ _ _ _ _ H).
  - exact Logic.I.
  - intros ix v IH. exact IH.
Qed.
(** ** Reading *)
Lemma read_eq d e h st : read f (S d) e h st =
    do r1 <- r_read e h TString k_name (COpt None) st; let '(ok1, n, st1) := r1 in
    if negb ok1 then Done (false, new_obj f, st1) else
    do r2 <- r_read e h (TMat D4 f) k_transform (CV (VP (new_transform f))) st1; let '(ok2, t, st2) := r2 in
    let obj := SObj (opt_text n) (pod t) in
    if negb ok2 then Done (false, obj ONull VNil ANone, st2) else
    do r3 <- r_begin e h k_sub true st2; let '(c, ok3, st3) := r3 in
    if negb ok3 then Done (false, obj ONull VNil ANone, st3) else
    do r4 <- match c with
             | None => Done (true, ONull, st3)
             | Some hc =>
               do q <- read f d e hc st3; let '(ok, x, q1) := q in
               if negb ok then Done (false, OSome x, q1) else
               do q2 <- r_end h (Some hc) q1; let '(ok2, q3) := q2 in Done (ok2, OSome x, q3)
             end; let '(ok4, sub, st4) := r4 in
    if negb ok4 then Done (false, obj sub VNil ANone, st4) else
    do r5 <- r_begin_arr e h k_vec false None st4; let '(c, size, ok5, _, st5) := r5 in
    if negb ok5 then Done (false, obj sub VNil ANone, st5) else
    do r6 <- match c with
             | None => Done (true, VNil, st5)
             | Some hc =>
               if e_lim e <? 8 * size then Throw else
               do q <- loop (read f d e) h hc (N.to_nat size) 0 st5; let '(ok, v, q1) := q in
               if negb ok then Done (false, v, q1) else
               do q2 <- r_end_arr h (Some hc) q1; let '(ok2, q3) := q2 in Done (ok2, v, q3)
             end; let '(ok6, vec, st6) := r6 in
    if negb ok6 then Done (false, obj sub vec ANone, st6) else
    do r7 <- r_begin_arr e h k_arr true (Some []) st6; let '(c, size, ok7, ix, st7) := r7 in
    if negb ok7 then Done (false, obj sub vec (ASome [] VNil), st7) else
    match c with
    | None => Done (true, obj sub vec ANone, st7)
    | Some hc =>
      if e_lim e <? 8 * size then Throw else
      let arr v := ASome (match ix with Some l => l | None => [] end) v in
      do q <- loop (read f d e) h hc (N.to_nat size) 0 st7; let '(ok, v, q1) := q in
      if negb ok then Done (false, obj sub vec (arr v), q1) else
      do q2 <- r_end_arr h (Some hc) q1; let '(ok2, q3) := q2 in Done (ok2, obj sub vec (arr v), q3)
    end.
Proof. reflexivity. Qed.

(** What the reading calls expect for an object. *)
Definition fresh_name : node := NItem (Item TString k_name (COpt None)).
Definition fresh_transform : node := NItem (Item (TMat D4 f) k_transform (CV (VP (new_transform f)))).
Fixpoint tmpl (o : sobj) : nodes :=
  match o with SObj _ _ sub vec arr =>
    Cons fresh_name (Cons fresh_transform
   (Cons (NSection k_sub (match sub with ONull => Nil | OSome x => tmpl x end))
   (Cons (NArray k_vec None (tmpl_v vec))
   (Cons (NArray k_arr (Some []) (match arr with ANone => SNil | ASome _ v => tmpl_v v end)) Nil))))
  end
with tmpl_v (v : ovecs) : sections :=
  match v with
  | VNil => SNil
  | VCons x r => SCons (match x with ONull => Cons fresh_name Nil | OSome o => tmpl o end) (tmpl_v r)
  end.
Lemma vsize_tmpl v : slen (tmpl_v v) = vsize v.
Proof. induction v as [|x v IH]; cbn [tmpl_v slen vsize]; [reflexivity|]. rewrite IH. reflexivity. Qed.
(** Every vector of pointers fits into the memory. *)
Fixpoint fit (lim : N) (o : sobj) : Prop :=
  match o with SObj _ _ sub vec arr =>
    match sub with ONull => True | OSome x => fit lim x end /\ 8 * vsize vec <= lim /\ fit_v lim vec /\
    match arr with ANone => True | ASome _ v => 8 * vsize v <= lim /\ fit_v lim v end
  end
with fit_v (lim : N) (v : ovecs) : Prop :=
  match v with VNil => True | VCons x r => match x with ONull => True | OSome o => fit lim o end /\ fit_v lim r end.

Lemma r_node_cons e h n l st st' n' l' : read_nodes e h (Cons n l) st = Done (true, Cons n' l', st') ->
  exists st1, read_node e h n st = Done (true, n', st1) /\ read_nodes e h l st1 = Done (true, l', st').
Proof.
  change (read_nodes e h (Cons n l) st) with (do r1 <- read_node e h n st; let '(ok, n', st1) := r1 in
    if negb ok then Done (false, Cons n' Nil, st1) else
    do r2 <- read_nodes e h l st1; let '(ok2, r', st2) := r2 in Done (ok2, Cons n' r', st2)).
  destruct (read_node e h n st) as [[[[] x] st1]| |]; cbn [bind negb]; try discriminate.
  destruct (read_nodes e h l st1) as [[[o y] st2]| |] eqn:E; cbn [bind]; try discriminate. intros X. injection X as -> -> -> ->. exists st1. split; [reflexivity|exact E].
Qed.
Lemma not_null e h key ix st hc n ok ix' st1 : r_begin_arr e h key true ix st = Done (Some hc, n, ok, ix', st1) ->
  r_begin_arr e h key false ix st = Done (Some hc, n, true, ix', st1) /\ ok = true.
Proof.
  unfold r_begin_arr. destruct (split_at rf_id h (r_chain st)) as [[[a g] [|]]|]; try discriminate.
  destruct (begin_read e vt_array_subsection key (r_stream st)) as [[endp s1]| |]; cbn [bind]; try discriminate.
  destruct (endp =? 0); try discriminate. destruct (endp =? rs_pos s1); try discriminate.
  destruct (read_meta e (rf_size g) endp ix s1) as [[[[[ok1 ?] c1] ix1] s2]| |]; cbn [bind]; try discriminate.
  destruct (negb ok1); try discriminate. intros [= <- <- <- <- <-]. auto.
Qed.

Definition r_sim (o : sobj) : Prop := forall d e h st st', (depth o <= d)%nat -> fit (e_lim e) o ->
  read_nodes e h (tmpl o) st = Done (true, doc f o, st') -> read f d e h st = Done (true, o, st').
Definition r_sim_v (v : ovecs) : Prop := forall d e h hc i st st', (depth_v v <= d)%nat -> fit_v (e_lim e) v ->
  read_elems e h hc i (tmpl_v v) st = Done (true, doc_v f v, st') -> loop (read f d e) h hc (N.to_nat (vsize v)) i st = Done (true, v, st').
Lemma r_arr_sim e h key null ix ix' v d st st' : r_sim_v v -> (depth_v v <= d)%nat -> fit_v (e_lim e) v ->
  (null = true \/ null = false) ->
  read_node e h (NArray key ix (tmpl_v v)) st = Done (true, NArray key ix' (doc_v f v), st') ->
  exists hc q1 q2, r_begin_arr e h key null (match ix with Some _ => Some [] | None => None end) st = Done (Some hc, vsize v, true, ix', q1) /\
    loop (read f d e) h hc (N.to_nat (vsize v)) 0 q1 = Done (true, v, q2) /\ r_end_arr h (Some hc) q2 = Done (true, st').
Proof.
  intros IH D Fi Hn H.
  change (read_node e h (NArray key ix (tmpl_v v)) st) with (
    do r <- r_begin_arr e h key true (match ix with Some _ => Some [] | None => None end) st;
    let '(c, count, ok, ix', st1) := r in
    match c with
    | None => Done (ok, NNullArray key, st1)
    | Some hc =>
      if negb (count =? slen (tmpl_v v)) then Done (false, NNullArray key, st1) else
      do r2 <- read_elems e h hc 0 (tmpl_v v) st1; let '(ok2, elems', st2) := r2 in
      if negb ok2 then Done (false, NArray key ix' elems', st2) else
      do r3 <- r_end_arr h (Some hc) st2; let '(ok3, st3) := r3 in Done (ok3, NArray key ix' elems', st3)
    end) in H.
  destruct (r_begin_arr e h key true (match ix with Some _ => Some [] | None => None end) st) as [[[[[[hc|] n] ok] ix1] q1]| |] eqn:Eb; cbn [bind] in H; try discriminate.
  destruct (N.eqb_spec n (slen (tmpl_v v))) as [->|]; cbn [negb] in H; [|discriminate]. rewrite vsize_tmpl in *.
  destruct (read_elems e h hc 0 (tmpl_v v) q1) as [[[[] y] q2]| |] eqn:Er; cbn [bind negb] in H; try discriminate.
  destruct (r_end_arr h (Some hc) q2) as [[o q3]| |] eqn:Ee; cbn [bind] in H; try discriminate. injection H as -> -> -> ->.
  exists hc, q1, q2. destruct (not_null _ _ _ _ _ _ _ _ _ _ Eb) as (Eb' & ->). split; [destruct Hn as [->| ->]; assumption|].
  split; [exact (IH d e h hc 0 q1 q2 D Fi Er)|exact Ee].
Qed.
Lemma r_all : (forall o, r_sim o) /\ (forall x, match x with ONull => True | OSome o => r_sim o end) /\
  (forall v, r_sim_v v) /\ (forall a, match a with ANone => True | ASome _ v => r_sim_v v end).
Proof.
  apply sobj_all_ind; [|exact Logic.I|auto|..].
  - intros name tf sub IHs vec IHv arr IHa d e h st st' D Fi H. cbn [doc tmpl] in H.
    apply r_node_cons in H. destruct H as (s1 & E1 & H). apply r_node_cons in H. destruct H as (s2 & E2 & H).
    apply r_node_cons in H. destruct H as (s3 & E3 & H). apply r_node_cons in H. destruct H as (s4 & E4 & H).
    apply r_node_cons in H. destruct H as (s5 & E5 & H). cbn [read_nodes] in H. injection H as ->.
    cbn [depth] in D. destruct d as [|d]; [lia|]. destruct Fi as (Fs & Lv & Fv & Fa). rewrite read_eq.
    unfold fresh_name, fresh_transform in E1, E2. cbn [read_node i_type i_key i_val] in E1, E2.
    destruct (r_read e h TString k_name (COpt None) st) as [[[ok1 n] q1]| |] eqn:R1; cbn [bind] in E1 |- *; try discriminate. injection E1 as -> -> ->. cbn [negb].
    destruct (r_read e h (TMat D4 f) k_transform (CV (VP (new_transform f))) s1) as [[[ok2 t] q2]| |] eqn:R2; cbn [bind] in E2 |- *; try discriminate. injection E2 as -> -> ->. cbn [negb pod].
    assert (En : opt_text (COpt match name with Some s => Some (VS s) | None => None end) = name) by (destruct name; reflexivity). rewrite En.
    assert (X3 : exists c q3, r_begin e h k_sub true s2 = Done (c, true, q3) /\
       match c with None => Done (true, ONull, q3) | Some hc =>
               do q <- read f d e hc q3; let '(ok, x, q1) := q in
               if negb ok then Done (false, OSome x, q1) else
               do q2 <- r_end h (Some hc) q1; let '(ok2, q3) := q2 in Done (ok2, OSome x, q3) end = Done (true, sub, s3)).
    { change ((do r <- r_begin e h k_sub true s2; let '(c, ok, st1) := r in match c with None => Done (ok, NNullSection k_sub, st1) | Some hc =>
         do r2 <- read_nodes e hc (match sub with ONull => Nil | OSome x => tmpl x end) st1; let '(ok2, body', st2) := r2 in
         if negb ok2 then Done (false, NSection k_sub body', st2) else
         do r3 <- r_end h (Some hc) st2; let '(ok3, st3) := r3 in Done (ok3, NSection k_sub body', st3) end) =
         Done (true, match sub with ONull => NNullSection k_sub | OSome x => NSection k_sub (doc f x) end, s3)) in E3.
      destruct (r_begin e h k_sub true s2) as [[[[hc|] ok] q3]| |] eqn:Eb; cbn [bind] in E3; try discriminate.
      - destruct (read_nodes e hc (match sub with ONull => Nil | OSome x => tmpl x end) q3) as [[[[] y] q4]| |] eqn:Er; cbn [bind negb] in E3; try discriminate.
        destruct (r_end h (Some hc) q4) as [[o q5]| |] eqn:Ee; cbn [bind] in E3; try discriminate.
        destruct sub as [|x]; [discriminate|]. injection E3 as -> -> ->.
        exists (Some hc), q3. split.
        + f_equal. f_equal. f_equal. revert Eb. unfold r_begin. destruct (split_at rf_id h (r_chain s2)) as [[[a g] [|]]|]; try discriminate.
          destruct (begin_read e vt_subsection k_sub (r_stream s2)) as [[endp t]| |]; cbn [bind]; try discriminate.
          repeat match goal with |- context [if ?b then _ else _] => destruct b end; try discriminate; congruence.
        + rewrite (IHs d e hc q3 q4); [|lia|exact Fs|exact Er]. cbn [bind negb]. rewrite Ee. reflexivity.
      - destruct sub as [|x]; [|discriminate]. injection E3 as -> ->. exists None, s3. auto. }
    destruct X3 as (c & q3 & B3 & X3). rewrite B3. cbn [bind negb]. rewrite X3. cbn [bind negb].
    destruct (r_arr_sim e h k_vec false None None vec d s3 s4 IHv ltac:(lia) Fv ltac:(auto) E4) as (hc & p1 & p2 & A1 & A2 & A3).
    rewrite A1. cbn [bind negb]. replace (e_lim e <? 8 * vsize vec) with false by (symmetry; apply N.ltb_ge; exact Lv).
    rewrite A2. cbn [bind negb]. rewrite A3. cbn [bind negb].
    destruct arr as [|ix v].
    + cbn [read_node] in E5. destruct (r_begin_arr e h k_arr true (Some []) s4) as [[[[[[hc2|] n2] ok] ix1] q]| |]; cbn [bind] in E5 |- *; try discriminate.
      * destruct (negb (n2 =? slen SNil)); [discriminate|]. cbn [bind negb] in E5.
        cbn [read_elems bind negb] in E5. destruct (r_end_arr h (Some hc2) q) as [[? ?]| |]; cbn [bind] in E5; discriminate E5.
      * injection E5 as -> ->. reflexivity.
    + destruct Fa as (La & Fa). destruct (r_arr_sim e h k_arr true (Some []) (Some ix) v d s4 st' IHa ltac:(lia) Fa ltac:(auto) E5) as (hc2 & t1 & t2 & B1 & B2 & B4).
      rewrite B1. cbn [bind negb]. replace (e_lim e <? 8 * vsize v) with false by (symmetry; apply N.ltb_ge; exact La).
      rewrite B2. cbn [bind negb]. rewrite B4. reflexivity.
  - intros d e h hc i st st' _ _ H. cbn in H. injection H as ->. reflexivity.
  - intros x IHx v IHv d e h hc i st st' D Fi H. cbn [doc_v tmpl_v] in H. cbn [depth_v fit_v] in D, Fi. destruct Fi as (Fx & Fv).
    change ((do r1 <- r_begin_in h (Some hc) i true st; let '(ok, has_data, st1) := r1 in
      if negb ok then Done (false, SNil, st1) else
      do r2 <- (if has_data : bool then read_nodes e hc (match x with ONull => Cons fresh_name Nil | OSome o => tmpl o end) st1 else Done (true, Nil, st1));
      let '(ok2, body', st2) := r2 in
      if negb ok2 then Done (false, SCons body' SNil, st2) else
      do r3 <- r_end_in h (Some hc) i st2; let '(ok3, st3) := r3 in
      if negb ok3 then Done (false, SCons body' SNil, st3) else
      do r4 <- read_elems e h hc (i + 1) (tmpl_v v) st3; let '(ok4, r', st4) := r4 in Done (ok4, SCons body' r', st4)) =
      Done (true, SCons (match x with ONull => Nil | OSome o => doc f o end) (doc_v f v), st')) in H.
    cbn [vsize]. rewrite N2Nat.inj_add. change (N.to_nat 1) with 1%nat. rewrite Nat.add_1_r. cbn [loop].
    destruct (r_begin_in h (Some hc) i true st) as [[[[] has] s1]| |]; cbn [bind negb] in *; try discriminate.
    match type of H with context [if has then ?a else ?b] => set (body := if has then a else b) in * end.
    destruct body as [[[[] y] s2]| |] eqn:Eb; cbn [bind negb] in H; try discriminate. subst body.
    destruct (r_end_in h (Some hc) i s2) as [[[] s3]| |] eqn:Ee; cbn [bind negb] in H; try discriminate.
    destruct (read_elems e h hc (i + 1) (tmpl_v v) s3) as [[[o z] s4]| |] eqn:Er; cbn [bind] in H; try discriminate. injection H as -> -> -> ->.
    assert (X : (if has then do q <- read f d e hc s1; let '(ok, o, q1) := q in Done (ok, OSome o, q1) else Done (true, ONull, s1)) = Done (true, x, s2)).
    { destruct has; [|destruct x as [|[]]; [injection Eb as ->; reflexivity|discriminate]]. destruct x as [|ox].
      - exfalso. cbn [read_nodes] in Eb. destruct (read_node e hc fresh_name s1) as [[[[] ?] ?]| |]; cbn in Eb; discriminate.
      - rewrite (IHx d e hc s1 s2); [reflexivity|lia|exact Fx|exact Eb]. }
    rewrite X. cbn [bind negb]. rewrite Ee. cbn [bind negb]. fold (loop (read f d e) h hc). rewrite (IHv d e h hc (i + 1) s3 st'); [reflexivity|lia|exact Fv|exact Er].
  - exact Logic.I.
  - intros ix v IH. exact IH.
Qed.

(** ** The documents *)
Lemma doc_legal : (forall o, obj_ok f o -> nodes_ok (doc f o) /\ nodes_full (doc f o) /\ nodes_mirror (doc f o) (tmpl o)) /\
  (forall x, match x with ONull => True | OSome o => obj_ok f o -> nodes_ok (doc f o) /\ nodes_full (doc f o) /\ nodes_mirror (doc f o) (tmpl o) end) /\
  (forall v, objs_ok f v -> elems_ok (doc_v f v) /\ elems_full (doc_v f v) /\ elems_mirror (doc_v f v) (tmpl_v v)) /\
  (forall a, match a with ANone => True | ASome _ v => objs_ok f v -> elems_ok (doc_v f v) /\ elems_full (doc_v f v) /\ elems_mirror (doc_v f v) (tmpl_v v) end).
Proof.
  assert (K : len k_name <= 40 /\ len k_transform <= 40 /\ len k_sub <= 40 /\ len k_vec <= 40 /\ len k_arr <= 40) by (repeat split; vm_compute; discriminate).
  destruct K as (K1 & K2 & K3 & K4 & K5).
  assert (V0 : val_ok (TMat D4 f) (VP (new_transform f))) by (destruct f; vm_compute; reflexivity).
  apply sobj_all_ind; [|exact Logic.I|auto|..].
  - intros name tf sub IHs vec IHv arr IHa (Hn & Ht & Hs & Hv & Ha). destruct (IHv Hv) as (V1 & V2 & V3).
    assert (Nn : item_ok (Item TString k_name (COpt match name with Some s => Some (VS s) | None => None end))).
    { split; [destruct name; exact Hn|exact K1]. }
    assert (Nt : item_ok (Item (TMat D4 f) k_transform (CV (VP tf)))) by (split; [exact Ht|exact K2]).
    cbn [doc tmpl]. split; [|split].
    + split; [exact Nn|]. split; [exact Nt|]. split; [destruct sub as [|x]; [exact K3|split; [exact K3|exact (proj1 (IHs Hs))]]|].
      split; [split; [exact K4|split; [exact Logic.I|exact V1]]|]. split; [|exact Logic.I].
      destruct arr as [|ix v]; [exact K5|]. destruct Ha as (Hi & Ha). split; [exact K5|]. split; [exact Hi|exact (proj1 (IHa Ha))].
    + split; [exact Logic.I|]. split; [exact Logic.I|]. split.
      { destruct sub as [|x]; [exact Logic.I|]. destruct (IHs Hs) as (_ & Fx & _). destruct x. exact Fx. }
      split; [exact V2|]. split; [|exact Logic.I]. destruct arr as [|ix v]; [exact Logic.I|]. destruct Ha as (_ & Ha). exact (proj1 (proj2 (IHa Ha))).
    + split; [split; [repeat split|exact Logic.I]|]. split; [split; [repeat split; exact V0|exact Logic.I]|]. split.
      { destruct sub as [|x]; [reflexivity|]. destruct (IHs Hs) as (_ & _ & Mx). destruct x. split; [reflexivity|exact Mx]. }
      split; [split; [reflexivity|split; [exact Logic.I|exact V3]]|]. split; [|exact Logic.I].
      destruct arr as [|ix v]; [reflexivity|]. destruct Ha as (_ & Ha). split; [reflexivity|]. split; [exact Logic.I|exact (proj2 (proj2 (IHa Ha)))].
  - intros _. repeat split.
  - intros x IHx v IHv (Hx & Hv). destruct (IHv Hv) as (V1 & V2 & V3). cbn [doc_v tmpl_v elems_ok elems_full elems_mirror].
    destruct x as [|o]; [repeat split; assumption|]. destruct (IHx Hx) as (O1 & O2 & O3).
    split; [split; assumption|]. split; [split; assumption|]. split; [destruct o; exact O3|exact V3].
  - exact Logic.I.
  - intros ix v IH. exact IH.
Qed.

Lemma fits fl lim : (forall o, len (nodes_bytes fl (doc f o)) <= lim -> fit lim o) /\
  (forall x, match x with ONull => True | OSome o => len (nodes_bytes fl (doc f o)) <= lim -> fit lim o end) /\
  (forall v, len (elems_bytes fl (doc_v f v)) <= lim -> fit_v lim v) /\
  (forall a, match a with ANone => True | ASome _ v => len (elems_bytes fl (doc_v f v)) <= lim -> fit_v lim v end).
Proof.
  apply sobj_all_ind; [|exact Logic.I|auto|..].
  - intros name tf sub IHs vec IHv arr IHa H. cbn [doc nodes_bytes] in H. rewrite !len_app in H.
    assert (A : forall key ix v, 8 * vsize v <= len (node_bytes fl (NArray key ix (doc_v f v))) /\ len (elems_bytes fl (doc_v f v)) <= len (node_bytes fl (NArray key ix (doc_v f v)))).
    { intros key ix v. pose proof (elems_bytes_bound fl (doc_v f v)) as B. rewrite vsize_slen in B.
      rewrite node_bytes_array, len_large_block, len_app. lia. }
    destruct (A k_vec None vec) as (A1 & A2). cbn [fit]. split; [|split; [lia|split; [apply IHv; lia|]]].
    + destruct sub as [|x]; [exact Logic.I|]. apply IHs. cbn [node_bytes] in H. rewrite len_large_block in H. lia.
    + destruct arr as [|ix v]; [exact Logic.I|]. destruct (A k_arr (Some ix) v) as (B1 & B2). split; [lia|apply IHa; lia].
  - intros _. exact Logic.I.
  - intros x IHx v IHv H. cbn [doc_v elems_bytes] in H. rewrite !len_app in H. split; [|apply IHv; lia]. destruct x as [|o]; [exact Logic.I|]. apply IHx. lia.
  - exact Logic.I.
  - intros ix v IH. exact IH.
Qed.

Lemma compare_eq n t s v r n' t' s' v' r' : compare f (SObj n t s v r) (SObj n' t' s' v' r') =
    cval_eq TString (v_name n) (v_name n') && cval_eq (TMat D4 f) (CV (VP t)) (CV (VP t')) &&
    compare_o f s s' && compare_v f v v' &&
    match r, r' with
    | ANone, ANone => true
    | ASome i w, ASome i' w' => compare_v f w w' && (if list_eq_dec N.eq_dec i i' then true else false)
    | _, _ => false
    end.
Proof. reflexivity. Qed.
Lemma compare_self : (forall o, obj_ok f o -> no_nan f o -> compare f o o = true) /\
  (forall x, match x with ONull => True | OSome o => obj_ok f o -> no_nan f o -> compare f o o = true end) /\
  (forall v, objs_ok f v -> no_nans f v -> compare_v f v v = true) /\
  (forall a, match a with ANone => True | ASome _ v => objs_ok f v -> no_nans f v -> compare_v f v v = true end).
Proof.
  apply sobj_all_ind; [|exact Logic.I|auto|..].
  - intros name tf sub IHs vec IHv arr IHa (Hn & Ht & Hs & Hv & Ha) (Ct & Cs & Cv & Ca). rewrite compare_eq.
    rewrite (proj2 (cval_eq_iff TString (v_name name) (v_name name) ltac:(destruct name; exact Hn) ltac:(destruct name; exact Hn))); [|apply cval_same_refl; destruct name; exact Logic.I].
    rewrite (proj2 (cval_eq_iff (TMat D4 f) (CV (VP tf)) (CV (VP tf)) Ht Ht)); [|apply cval_same_refl; exact Ct].
    rewrite (IHv Hv Cv). cbn [andb].
    replace (compare_o f sub sub) with true by (destruct sub as [|x]; [reflexivity|symmetry; exact (IHs Hs Cs)]). cbn [andb].
    destruct arr as [|ix v]; [reflexivity|]. destruct Ha as (_ & Ha). rewrite (IHa Ha Ca). destruct (list_eq_dec N.eq_dec ix ix); [reflexivity|contradiction].
  - reflexivity.
  - intros x IHx v IHv (Hx & Hv) (Cx & Cv). change (compare_o f x x && compare_v f v v = true). rewrite (IHv Hv Cv). destruct x as [|o]; [reflexivity|]. change (compare f o o && true = true). rewrite (IHx Hx Cx). reflexivity.
  - exact Logic.I.
  - intros ix v IH. exact IH.
Qed.

Lemma t_sections_test o init lim fl : obj_ok f o -> room init lim (len (nodes_bytes fl (doc f o))) ->
  exists s0 st, fresh init lim fl = Done s0 /\ write f 0 o (w_open s0) = Done (true, st) /\
    ws_data (w_stream st) = nodes_bytes fl (doc f o) /\
    forall e d post, (depth o <= d)%nat -> read_room e (ws_pos (w_stream st)) (ws_pos (w_stream st) + len post) ->
      exists st', read f d e 0 (r_open (RS (ws_data (w_stream st) ++ post) 0 fl)) = Done (true, o, st') /\
        r_stream st' = RS (ws_data (w_stream st) ++ post) (ws_pos (w_stream st)) fl.
Proof.
  intros Ho Hr. destruct (proj1 doc_legal o Ho) as (Dk & Df & Dm).
  destruct (t_write_doc init lim fl (doc f o) Dk Hr) as (s0 & st & E0 & E & Hd & Hp).
  destruct (t_doc_full init lim fl (doc f o) Dk Df Hr) as (s0' & st' & E0' & E' & C). rewrite E0 in E0'. injection E0' as <-. rewrite E in E'. injection E' as <-.
  exists s0, st. split; [exact E0|]. split; [exact (proj1 (w_sim) o _ _ _ E)|]. split; [exact Hd|].
  intros e d post D RR. destruct (C e (tmpl o) post Dm RR) as (st2 & R & S). exists st2. split; [|exact S].
  refine (proj1 r_all o d e 0 _ _ D _ R). apply (proj1 (fits fl (e_lim e))). destruct RR as (RR & _). rewrite Hp in RR. lia.
Qed.
End F.
