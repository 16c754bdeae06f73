(** * Proofs of the properties of histories of section calls. *)
From Verif Require Import Base Bytes BytesFacts Values Streams FileSpec ReadSpec StreamFacts StreamProps Types Format
  EntityWriter EntityReader EntityWriterFacts EntityReaderFacts Sections SectionFacts Protocol ProtocolSpec ProtocolFacts.
Open Scope N_scope.

Definition wok (hist : list (wcall * wret)) (st : wstate) : Prop :=
  chain_ok wf_id wf_size wf_index (fun x => wtrack x hist) (w_next st) (w_chain st).

Lemma wtrack_snoc x hist p : wtrack x (hist ++ [p]) = track1 x (wtrack x hist) (wevent p).
Proof. unfold wtrack. rewrite map_app. apply track_snoc. Qed.

(** The object [h] gets the state [g], the others keep theirs. *)
Definition upd (h : N) (g : open_section) (G : N -> open_section) (x : N) : open_section := if h =? x then g else G x.

Lemma is_next_next (g : open_section) (arg : option N) i f_index f_size nxt :
  os_active g = nxt -> os_size g = f_size -> os_begun g = add64 f_index 1 ->
  is_next g arg i = hdl_eqb nxt arg && (add64 f_index 1 =? i) && negb (f_size <=? i).
Proof.
  intros <- <- E. unfold is_next. rewrite <- E. rewrite (N.eqb_sym i). f_equal. rewrite N.ltb_antisym. reflexivity.
Qed.

Lemma wok_step hist st c r st' : wok hist st -> wcall_ok c -> wstep c st = Done (r, st') -> wok (hist ++ [(c, r)]) st'.
Proof.
  intros H Hok E.
  assert (Other_same : (forall x, wtrack x (hist ++ [(c, r)]) = wtrack x hist) -> w_chain st' = w_chain st -> w_next st' = w_next st ->
     wok (hist ++ [(c, r)]) st').
  { intros Ht Ec En. unfold wok. rewrite Ec, En. eapply chain_eq; [|exact H]. exact Ht. }
  assert (T : forall x, wtrack x (hist ++ [(c, r)]) = track1 x (wtrack x hist) (wevent (c, r))) by (intros; apply wtrack_snoc).
  destruct c as [h t key v|h key|h arg|h key size ix|h arg i|h arg i|h arg]; cbn [wstep] in E; unfold as_bool, as_handle in E.
  - (* write *)
    unfold w_write in E. destruct (split_at wf_id h (w_chain st)) as [[[a f] b]|] eqn:Es; [|discriminate E].
    destruct (ew_write t key v (w_stream st)) as [[ok s1]| |]; cbn [bind] in E; [|discriminate|discriminate].
    injection E as <- <-. apply Other_same; try reflexivity; intros x; rewrite T; reflexivity.
  - (* begin *)
    unfold w_begin in E. destruct (split_at wf_id h (w_chain st)) as [[[a f] b]|] eqn:Es; [|discriminate E].
    destruct (split_chain _ _ _ _ _ _ _ _ _ _ H Es) as (Ec & Hid & (F1 & F2 & F3 & F4) & Hna & Hnb & Hh).
    destruct b as [|c0 b].
    + destruct (begin_write vt_subsection key (w_stream st)) as [[ok s1]| |] eqn:Eb; cbn [bind] in E; [|discriminate|discriminate].
      rewrite (begin_write_true _ _ _ _ _ Eb) in E. injection E as <- <-. unfold wok in *. cbn [w_chain w_next]. rewrite Ec in H.
      set (g' := OS (Some (w_next st)) (os_size (wtrack h hist)) (os_begun (wtrack h hist))).
      eapply chain_eq; [|eapply (chain_grow _ _ _ _ _ a f f (wf_new (w_next st) (w_stream st)) h g'); [exact H|exact Hid|exact Hid|reflexivity| |reflexivity|reflexivity]].
      * intros x. rewrite T. cbn [wevent track1]. destruct (N.eqb_spec h x) as [->|]; reflexivity.
      * unfold g', frame_ok. cbn. auto.
    + cbn [bind] in E. injection E as <- <-. apply Other_same; try reflexivity; intros x; rewrite T; reflexivity.
  - (* end *)
    unfold w_end in E. destruct (split_at wf_id h (w_chain st)) as [[[a f] b]|] eqn:Es; [|discriminate E].
    destruct (split_chain _ _ _ _ _ _ _ _ _ _ H Es) as (Ec & Hid & (F1 & F2 & F3 & F4) & Hna & Hnb & Hh).
    destruct (negb _).
    { cbn [bind] in E. injection E as <- <-. apply Other_same; try reflexivity; intros x; rewrite T; reflexivity. }
    destruct b as [|c0 b]; [discriminate E|].
    destruct (end_write (wf_start c0) (w_stream st)) as [[ok s1]| |]; cbn [bind] in E; [|discriminate|discriminate].
    destruct ok; cbn [bind] in E; injection E as <- <-.
    + unfold wok in *. cbn [w_chain w_next]. rewrite Ec in H.
      set (g' := OS None (os_size (wtrack h hist)) (os_begun (wtrack h hist))).
      eapply chain_eq; [|eapply (chain_step _ _ _ _ _ a f (c0 :: b) f [] h g'); [exact H|exact Hid|exact Hid|right; reflexivity|]].
      * intros x. rewrite T. cbn [wevent track1]. destruct (N.eqb_spec h x) as [->|]; reflexivity.
      * unfold g', frame_ok. cbn. auto.
    + apply Other_same; try reflexivity; intros x; rewrite T; reflexivity.
  - (* begin array *)
    unfold w_begin_arr in E. destruct (split_at wf_id h (w_chain st)) as [[[a f] b]|] eqn:Es; [|discriminate E].
    destruct (split_chain _ _ _ _ _ _ _ _ _ _ H Es) as (Ec & Hid & (F1 & F2 & F3 & F4) & Hna & Hnb & Hh).
    destruct b as [|c0 b].
    + destruct (begin_write vt_array_subsection key (w_stream st)) as [[ok s1]| |] eqn:Eb; cbn [bind] in E; [|discriminate|discriminate].
      rewrite (begin_write_true _ _ _ _ _ Eb) in E. cbn [negb] in E. unfold wok in *. rewrite Ec in H.
      destruct (N.eqb_spec size ones) as [Ez|Ez].
      * cbn [bind] in E. injection E as <- <-. cbn [w_chain w_next].
        set (g' := OS (Some (w_next st)) 0 (os_begun (wtrack h hist))).
        eapply chain_eq; [|eapply (chain_grow _ _ _ _ _ a f (WF (wf_id f) (wf_start f) 0 (wf_index f) (wf_arr_start f)) (wf_new (w_next st) (w_stream st)) h g');
          [exact H|exact Hid|exact Hid|reflexivity| |reflexivity|reflexivity]].
        -- intros x. rewrite T. cbn [wevent]. rewrite Ez, N.eqb_refl. cbn [track1]. destruct (N.eqb_spec h x) as [->|]; reflexivity.
        -- unfold g', frame_ok. cbn. repeat split; auto.
      * destruct (write_meta 0 size ix s1) as [[ok2 s2]| |] eqn:Em; cbn [bind] in E; [|discriminate|discriminate].
        rewrite (write_meta_true _ _ _ _ _ _ Em) in E. cbn [negb bind] in E. injection E as <- <-. cbn [w_chain w_next].
        set (g' := OS (Some (w_next st)) size 0).
        eapply chain_eq; [|eapply (chain_grow _ _ _ _ _ a f (WF (wf_id f) (wf_start f) size ones 0) (wf_new (w_next st) (w_stream st)) h g');
          [exact H|exact Hid|exact Hid|reflexivity| |reflexivity|reflexivity]].
        -- intros x. rewrite T. cbn [wevent]. apply N.eqb_neq in Ez. rewrite Ez. cbn [track1].
           destruct (N.eqb_spec h x) as [->|]; reflexivity.
        -- unfold g', frame_ok. cbn. repeat split; try reflexivity. exact Hok.
    + cbn [bind] in E. injection E as <- <-. apply Other_same; try reflexivity; intros x; rewrite T; reflexivity.
  - (* begin in array *)
    unfold w_begin_in in E. destruct (split_at wf_id h (w_chain st)) as [[[a f] b]|] eqn:Es; [|discriminate E].
    destruct (split_chain _ _ _ _ _ _ _ _ _ _ H Es) as (Ec & Hid & (F1 & F2 & F3 & F4) & Hna & Hnb & Hh).
    assert (Hin := is_next_next (wtrack h hist) arg i _ _ _ F1 F2 F3).
    assert (Rej : is_next (wtrack h hist) arg i = false -> forall x, wtrack x (hist ++ [(WBeginIn h arg i, r)]) = wtrack x hist).
    { intros Hr x. rewrite T. cbn [wevent track1]. destruct (N.eqb_spec h x) as [<-|]; [rewrite Hr|]; reflexivity. }
    destruct (hdl_eqb (head_id wf_id b) arg); cbn [negb] in E.
    2:{ cbn [bind] in E. injection E as <- <-. apply Other_same; try reflexivity. apply Rej. rewrite Hin. reflexivity. }
    destruct (add64 (wf_index f) 1 =? i) eqn:Ei; cbn [negb] in E.
    2:{ cbn [bind] in E. injection E as <- <-. apply Other_same; try reflexivity. apply Rej. rewrite Hin. reflexivity. }
    destruct (N.leb_spec (wf_size f) i) as [Ez|Ez].
    { cbn [bind] in E. injection E as <- <-. apply Other_same; try reflexivity. apply Rej. rewrite Hin. reflexivity. }
    destruct (ws_u64 maxint64 (w_stream st)) as [s1| |] eqn:Ew; cbn [bind] in E; [|discriminate|discriminate].
    injection E as <- <-. unfold wok in *. cbn [w_chain w_next]. rewrite Ec in H.
    set (g' := OS (os_active (wtrack h hist)) (os_size (wtrack h hist)) (os_begun (wtrack h hist) + 1)).
    eapply chain_eq; [|eapply (chain_step _ _ _ _ _ a f b (WF (wf_id f) (wf_start f) (wf_size f) i (ws_pos (w_stream st))) b h g');
      [exact H|exact Hid|exact Hid|left; reflexivity|]].
    + intros x. rewrite T. cbn [wevent track1]. destruct (N.eqb_spec h x) as [<-|]; cbn [andb]; [|reflexivity].
      rewrite Hin. reflexivity.
    + unfold g', frame_ok. cbn. apply N.eqb_eq in Ei. split; [exact F1|]. split; [exact F2|]. split; [|exact F4].
      rewrite F3, Ei. symmetry. apply add64_small. lia.
  - (* end in array *)
    unfold w_end_in in E. destruct (split_at wf_id h (w_chain st)) as [[[a f] b]|] eqn:Es; [|discriminate E].
    destruct (_ || _).
    { cbn [bind] in E. injection E as <- <-. apply Other_same; try reflexivity; intros x; rewrite T; reflexivity. }
    destruct (thrown _) as [s1| |]; cbn [bind] in E; [|discriminate|discriminate].
    destruct (ws_u64 _ s1) as [s2| |]; cbn [bind] in E; [|discriminate|discriminate].
    destruct (thrown _) as [s3| |]; cbn [bind] in E; [|discriminate|discriminate].
    injection E as <- <-. apply Other_same; try reflexivity; intros x; rewrite T; reflexivity.
  - (* end array *)
    unfold w_end_arr in E. destruct (split_at wf_id h (w_chain st)) as [[[a f] b]|] eqn:Es; [|discriminate E].
    destruct (split_chain _ _ _ _ _ _ _ _ _ _ H Es) as (Ec & Hid & (F1 & F2 & F3 & F4) & Hna & Hnb & Hh).
    destruct (negb _).
    { cbn [bind] in E. injection E as <- <-. apply Other_same; try reflexivity; intros x; rewrite T; reflexivity. }
    destruct (negb _).
    { cbn [bind] in E. injection E as <- <-. apply Other_same; try reflexivity; intros x; rewrite T; reflexivity. }
    destruct b as [|c0 b]; [discriminate E|].
    destruct (end_write (wf_start c0) (w_stream st)) as [[ok s1]| |]; cbn [bind] in E; [|discriminate|discriminate].
    destruct ok; cbn [bind] in E; injection E as <- <-.
    + unfold wok in *. cbn [w_chain w_next]. rewrite Ec in H.
      eapply chain_eq; [|eapply (chain_step _ _ _ _ _ a f (c0 :: b) (WF (wf_id f) (wf_start f) 0 ones 0) [] h no_section);
        [exact H|exact Hid|exact Hid|right; reflexivity|]].
      * intros x. rewrite T. cbn [wevent track1]. destruct (N.eqb_spec h x) as [->|]; reflexivity.
      * repeat split; reflexivity.
    + apply Other_same; try reflexivity; intros x; rewrite T; reflexivity.
Qed.

Lemma whist_ok s hist st : whist s hist st -> wok hist st.
Proof.
  induction 1 as [|hist st c r st' H IH Hok E].
  - unfold wok, w_open. cbn [w_chain w_next]. split; [|split; [|split]].
    + cbn. repeat split; reflexivity.
    + cbn. constructor; [intros []|constructor].
    + repeat constructor. 
    + intros x _. reflexivity.
  - eapply wok_step; eassumption.
Qed.

(** ** The writer theorems *)
Lemma w_in_array s hist st h arg i : whist s hist st -> wlive h st ->
  let g := wtrack h hist in
  (arg = os_active g /\ i = os_begun g /\ i < os_size g ->
     match w_begin_in h arg i st with Done (ok, _) => ok = true | _ => True end) /\
  (arg <> os_active g \/ i <> os_begun g \/ os_size g <= i -> w_begin_in h arg i st = Done (false, st)).
Proof.
  intros H Hl g. pose proof (whist_ok _ _ _ H) as K. destruct (live_split wf_id h _ Hl) as (a & f & b & Es).
  destruct (split_chain _ _ _ _ _ _ _ _ _ _ K Es) as (Ec & Hid & (F1 & F2 & F3 & F4) & _). fold g in F1, F2, F3.
  unfold w_begin_in. rewrite Es, <- F1, <- F2, <- F3. split.
  - intros (-> & -> & Hi). rewrite hdl_refl, N.eqb_refl. cbn [negb].
    destruct (N.leb_spec (os_size g) (os_begun g)) as [X|_]; [lia|].
    destruct (ws_u64 maxint64 (w_stream st)) as [s1| |] eqn:Ew; cbn [bind]; try exact I.
    rewrite (ws_u64_pos _ _ _ Ew). apply N.eqb_refl.
  - intros Hc. destruct (hdl_eqb (os_active g) arg) eqn:E1; cbn [negb]; [|reflexivity]. apply hdl_eqb_eq in E1.
    destruct (N.eqb_spec (os_begun g) i) as [E2|E2]; cbn [negb]; [|reflexivity].
    destruct (N.leb_spec (os_size g) i) as [X|X]; [reflexivity|].
    destruct Hc as [Hc|[Hc|Hc]]; [congruence|congruence|lia].
Qed.

Lemma w_end_array s hist st h arg : whist s hist st -> wlive h st ->
  let g := wtrack h hist in
  arg <> os_active g \/ os_begun g <> os_size g -> w_end_arr h arg st = Done (false, st).
Proof.
  intros H Hl g Hc. pose proof (whist_ok _ _ _ H) as K. destruct (live_split wf_id h _ Hl) as (a & f & b & Es).
  destruct (split_chain _ _ _ _ _ _ _ _ _ _ K Es) as (Ec & Hid & (F1 & F2 & F3 & F4) & _). fold g in F1, F2, F3.
  unfold w_end_arr. rewrite Es, <- F1, <- F2, <- F3.
  destruct (hdl_eqb (os_active g) arg) eqn:E1; cbn [negb]; [|reflexivity]. apply hdl_eqb_eq in E1.
  destruct (N.eqb_spec (os_begun g) (os_size g)) as [E2|E2]; cbn [negb]; [|reflexivity].
  destruct Hc; congruence.
Qed.

Lemma w_other_handle s hist st h arg i : whist s hist st -> wlive h st ->
  let g := wtrack h hist in
  arg <> os_active g -> w_end h arg st = Done (false, st) /\ w_end_in h arg i st = Done (false, st).
Proof.
  intros H Hl g Hc. pose proof (whist_ok _ _ _ H) as K. destruct (live_split wf_id h _ Hl) as (a & f & b & Es).
  destruct (split_chain _ _ _ _ _ _ _ _ _ _ K Es) as (Ec & Hid & (F1 & F2 & F3 & F4) & _). fold g in F1, F2, F3.
  unfold w_end, w_end_in. rewrite Es, <- F1. rewrite hdl_eqb_neq by congruence. split; reflexivity.
Qed.

Lemma w_already_open s hist st h key size ix : whist s hist st -> wlive h st ->
  os_active (wtrack h hist) <> None -> w_begin h key st = Done (None, st) /\ w_begin_arr h key size ix st = Done (None, st).
Proof.
  intros H Hl Hc. pose proof (whist_ok _ _ _ H) as K. destruct (live_split wf_id h _ Hl) as (a & f & b & Es).
  destruct (split_chain _ _ _ _ _ _ _ _ _ _ K Es) as (Ec & Hid & (F1 & F2 & F3 & F4) & _).
  unfold w_begin, w_begin_arr. rewrite Es. destruct b; [cbn in F1; congruence|]. split; reflexivity.
Qed.

(** ** Reader *)
Definition rok (hist : list (rcall * rret)) (st : rstate) : Prop :=
  chain_ok rf_id rf_size rf_index (fun x => rtrack x hist) (r_next st) (r_chain st).
Lemma rtrack_snoc x hist p : rtrack x (hist ++ [p]) = track1 x (rtrack x hist) (revent p).
Proof. unfold rtrack. rewrite map_app. apply track_snoc. Qed.

Lemma rs_u64_lt s v s' : rs_u64 s = Done (v, s') -> v < two64.
Proof.
  unfold rs_u64, rs_word, rs_read1. cbn [rs_read ksize]. unfold rs_words.
  change (mul64 1 (wbytes W64)) with 8.
  destruct (rs_raw 8 (rep x00 (wbytes W64)) s) as [[[got d] s1]| |] eqn:E; cbn [bind]; [|discriminate|discriminate].
  assert (Hd : len d = 8).
  { unfold rs_raw in E. destruct (if rs_size s <? _ then _ else _) as [ep n]. destruct (_ && _) eqn:C; [|discriminate E].
    apply andb_true_iff in C. destruct C as (C1 & C2). injection E as <- <- <-.
    apply N.leb_le in C1. apply N.leb_le in C2. change (len (rep x00 (wbytes W64))) with 8 in *. unfold rs_size in C1.
    rewrite len_app, len_take, !len_drop. cbn [wbytes]. rewrite len_rep. lia. }
  assert (B : forall l, len l = 8 -> of_le l < two64).
  { intros l Hl. pose proof (of_le_bound l) as Q. rewrite Hl in Q. exact Q. }
  destruct (rs_flip s).
  - destruct (_ <=? _); cbn [bind]; [|discriminate]. intros H. injection H as <- <-. apply B. etransitivity; [apply (len_swap_words W64 (N.to_nat 1)); cbn [wbytes]; lia|exact Hd].
  - cbn [bind]. intros H. injection H as <- <-. apply B. exact Hd.
Qed.

Lemma read_meta_count e c0 bend ix s ok p n ix' s' : c0 < two64 ->
  read_meta e c0 bend ix s = Done (ok, p, n, ix', s') -> n < two64.
Proof.
  intros Hc. unfold read_meta.
  destruct (rs_u16 s) as [[flags s1]| |]; cbn [bind]; [|discriminate|discriminate].
  destruct (negb (N.land flags 0x200 =? 0)); [intros H; injection H; intros; subst; exact Hc|].
  destruct (rs_u64 s1) as [[count s2]| |] eqn:E2; cbn [bind]; [|discriminate|discriminate].
  apply rs_u64_lt in E2.
  destruct (negb (N.land flags 0x100 =? 0)).
  - destruct ix as [l|]; [|intros H; injection H; intros; subst; exact E2].
    destruct (rs_u64 s2) as [[ic s3]| |]; cbn [bind]; [|discriminate|discriminate].
    destruct (_ <? _); [intros H; injection H; intros; subst; exact E2|].
    destruct (resize e 4 0 ic l) as [l1| |]; cbn [bind]; [|discriminate|discriminate].
    destruct (rs_read (KW W32) ic _ s3) as [[[? img] s4]| |]; cbn [bind]; [|discriminate|discriminate].
    intros H. inversion H. subst. exact E2.
  - destruct ix; intros H; inversion H; subst; exact E2.
Qed.

Lemma rok_step e hist st c r st' : rok hist st -> no_failed_array [(c, r)] -> rstep e c st = Done (r, st') -> rok (hist ++ [(c, r)]) st'.
Proof.
  intros H Hok E.
  assert (Other_same : (forall x, rtrack x (hist ++ [(c, r)]) = rtrack x hist) -> r_chain st' = r_chain st -> r_next st' = r_next st ->
     rok (hist ++ [(c, r)]) st').
  { intros Ht Ec En. unfold rok. rewrite Ec, En. eapply chain_eq; [|exact H]. exact Ht. }
  assert (T : forall x, rtrack x (hist ++ [(c, r)]) = track1 x (rtrack x hist) (revent (c, r))) by (intros; apply rtrack_snoc).
  destruct c as [h t key v|h key nok|h arg|h key nok ix|h arg i opt|h arg i|h arg]; cbn [rstep] in E; unfold as_rbool in E.
  - (* read *)
    unfold r_read in E. destruct (split_at rf_id h (r_chain st)) as [[[a f] b]|] eqn:Es; [|discriminate E].
    destruct (er_read e t key v (r_stream st)) as [[[ok v'] s1]| |]; cbn [bind] in E; [|discriminate|discriminate].
    injection E as <- <-. apply Other_same; try reflexivity; intros x; rewrite T; reflexivity.
  - (* begin *)
    unfold r_begin in E. destruct (split_at rf_id h (r_chain st)) as [[[a f] b]|] eqn:Es; [|discriminate E].
    destruct (split_chain _ _ _ _ _ _ _ _ _ _ H Es) as (Ec & Hid & (F1 & F2 & F3 & F4) & Hna & Hnb & Hh).
    destruct b as [|c0 b].
    2:{ cbn [bind] in E. injection E as <- <-. apply Other_same; try reflexivity; intros x; rewrite T; reflexivity. }
    destruct (begin_read e vt_subsection key (r_stream st)) as [[endp s1]| |] eqn:Eb; cbn [bind] in E; [|discriminate|discriminate].
    destruct (endp =? 0).
    { cbn [bind] in E. injection E as <- <-. apply Other_same; try reflexivity; intros x; rewrite T; reflexivity. }
    destruct (endp =? rs_pos s1).
    { cbn [bind] in E. injection E as <- <-. apply Other_same; try reflexivity; intros x; rewrite T; reflexivity. }
    cbn [bind] in E. injection E as <- <-. unfold rok in *. cbn [r_chain r_next]. rewrite Ec in H.
    set (g' := OS (Some (r_next st)) (os_size (rtrack h hist)) (os_begun (rtrack h hist))).
    eapply chain_eq; [|eapply (chain_grow _ _ _ _ _ a f f (rf_new (r_next st) endp) h g'); [exact H|exact Hid|exact Hid|reflexivity| |reflexivity|reflexivity]].
    + intros x. rewrite T. cbn [revent track1]. destruct (N.eqb_spec h x) as [->|]; reflexivity.
    + unfold g', frame_ok. cbn. auto.
  - (* end *)
    unfold r_end in E. destruct (split_at rf_id h (r_chain st)) as [[[a f] b]|] eqn:Es; [|discriminate E].
    destruct (split_chain _ _ _ _ _ _ _ _ _ _ H Es) as (Ec & Hid & (F1 & F2 & F3 & F4) & Hna & Hnb & Hh).
    destruct (negb _).
    { cbn [bind] in E. injection E as <- <-. apply Other_same; try reflexivity; intros x; rewrite T; reflexivity. }
    destruct b as [|c0 b]; [discriminate E|].
    destruct (end_read (r_stream st) (rf_end c0)); cbn [bind] in E; injection E as <- <-.
    + unfold rok in *. cbn [r_chain r_next]. rewrite Ec in H.
      set (g' := OS None (os_size (rtrack h hist)) (os_begun (rtrack h hist))).
      eapply chain_eq; [|eapply (chain_step _ _ _ _ _ a f (c0 :: b) (RF (rf_id f) (rf_end f) (rf_size f) (rf_index f) 0) [] h g');
         [exact H|exact Hid|exact Hid|right; reflexivity|]].
      * intros x. rewrite T. cbn [revent track1]. destruct (N.eqb_spec h x) as [->|]; reflexivity.
      * unfold g', frame_ok. cbn. auto.
    + apply Other_same; try reflexivity; intros x; rewrite T; reflexivity.
  - (* begin array *)
    unfold r_begin_arr in E. destruct (split_at rf_id h (r_chain st)) as [[[a f] b]|] eqn:Es; [|discriminate E].
    destruct (split_chain _ _ _ _ _ _ _ _ _ _ H Es) as (Ec & Hid & (F1 & F2 & F3 & F4) & Hna & Hnb & Hh).
    destruct b as [|c0 b].
    2:{ cbn [bind] in E. injection E as <- <-. apply Other_same; try reflexivity; intros x; rewrite T; reflexivity. }
    destruct (begin_read e vt_array_subsection key (r_stream st)) as [[endp s1]| |] eqn:Eb; cbn [bind] in E; [|discriminate|discriminate].
    destruct (endp =? 0).
    { cbn [bind] in E. injection E as <- <-. apply Other_same; try reflexivity; intros x; rewrite T; reflexivity. }
    destruct (endp =? rs_pos s1).
    { cbn [bind] in E. injection E as <- <-. apply Other_same; try reflexivity; intros x; rewrite T; reflexivity. }
    destruct (read_meta e (rf_size f) endp ix s1) as [[[[[ok p] n] ix'] s2]| |] eqn:Em; cbn [bind] in E; [|discriminate|discriminate].
    destruct ok; cbn [negb bind] in E.
    2:{ injection E as <- <-. inversion Hok as [|x l Q _]. discriminate Q. }
    injection E as <- <-. unfold rok in *. cbn [r_chain r_next]. rewrite Ec in H.
    set (g' := OS (Some (r_next st)) n 0).
    eapply chain_eq; [|eapply (chain_grow _ _ _ _ _ a f (RF (rf_id f) (rf_end f) n ones (rf_end_pos f)) (rf_new (r_next st) endp) h g');
      [exact H|exact Hid|exact Hid|reflexivity| |reflexivity|reflexivity]].
    + intros x. rewrite T. cbn [revent track1]. destruct (N.eqb_spec h x) as [->|]; reflexivity.
    + unfold g', frame_ok. cbn. repeat split; try reflexivity. eapply read_meta_count; [exact F4|exact Em].
  - (* begin in array *)
    unfold r_begin_in in E. destruct (split_at rf_id h (r_chain st)) as [[[a f] b]|] eqn:Es; [|discriminate E].
    destruct (split_chain _ _ _ _ _ _ _ _ _ _ H Es) as (Ec & Hid & (F1 & F2 & F3 & F4) & Hna & Hnb & Hh).
    assert (Hin := is_next_next (rtrack h hist) arg i _ _ _ F1 F2 F3).
    assert (Rej : is_next (rtrack h hist) arg i = false -> forall x, rtrack x (hist ++ [(RBeginIn h arg i opt, r)]) = rtrack x hist).
    { intros Hr x. rewrite T. cbn [revent track1]. destruct (N.eqb_spec h x) as [<-|]; [rewrite Hr|]; reflexivity. }
    destruct (hdl_eqb (head_id rf_id b) arg); cbn [negb] in E.
    2:{ cbn [bind] in E. injection E as <- <-. apply Other_same; try reflexivity. apply Rej. rewrite Hin. reflexivity. }
    destruct (add64 (rf_index f) 1 =? i) eqn:Ei; cbn [negb] in E.
    2:{ cbn [bind] in E. injection E as <- <-. apply Other_same; try reflexivity. apply Rej. rewrite Hin. reflexivity. }
    destruct (N.leb_spec (rf_size f) i) as [Ez|Ez].
    { cbn [bind] in E. injection E as <- <-. apply Other_same; try reflexivity. apply Rej. rewrite Hin. reflexivity. }
    destruct (rs_u64 (r_stream st)) as [[sz s1]| |] eqn:Ew; cbn [bind] in E; [|discriminate|discriminate].
    assert (Est : st' = RSt s1 (a ++ RF (rf_id f) (rf_end f) (rf_size f) i (add64 (rs_pos s1) sz) :: b) (r_next st)).
    { destruct opt; [|destruct (sz =? 0)]; cbn [bind] in E; injection E as _ <-; reflexivity. }
    clear E. subst st'. unfold rok in *. cbn [r_chain r_next]. rewrite Ec in H.
    set (g' := OS (os_active (rtrack h hist)) (os_size (rtrack h hist)) (os_begun (rtrack h hist) + 1)).
    eapply chain_eq; [|eapply (chain_step _ _ _ _ _ a f b (RF (rf_id f) (rf_end f) (rf_size f) i (add64 (rs_pos s1) sz)) b h g');
      [exact H|exact Hid|exact Hid|left; reflexivity|]].
    + intros x. rewrite T. cbn [revent track1]. destruct (N.eqb_spec h x) as [<-|]; cbn [andb]; [|reflexivity].
      rewrite Hin. reflexivity.
    + unfold g', frame_ok. cbn. apply N.eqb_eq in Ei. split; [exact F1|]. split; [exact F2|]. split; [|exact F4].
      rewrite F3, Ei. symmetry. apply add64_small. lia.
  - (* end in array *)
    unfold r_end_in in E. destruct (split_at rf_id h (r_chain st)) as [[[a f] b]|] eqn:Es; [|discriminate E].
    destruct (_ || _); cbn [bind] in E; injection E as <- <-; apply Other_same; try reflexivity; intros x; rewrite T; reflexivity.
  - (* end array *)
    unfold r_end_arr in E. destruct (split_at rf_id h (r_chain st)) as [[[a f] b]|] eqn:Es; [|discriminate E].
    destruct (split_chain _ _ _ _ _ _ _ _ _ _ H Es) as (Ec & Hid & (F1 & F2 & F3 & F4) & Hna & Hnb & Hh).
    destruct (negb _).
    { cbn [bind] in E. injection E as <- <-. apply Other_same; try reflexivity; intros x; rewrite T; reflexivity. }
    destruct (negb _).
    { cbn [bind] in E. injection E as <- <-. apply Other_same; try reflexivity; intros x; rewrite T; reflexivity. }
    destruct b as [|c0 b]; [discriminate E|].
    destruct (end_read (r_stream st) (rf_end c0)); cbn [bind] in E; injection E as <- <-.
    + unfold rok in *. cbn [r_chain r_next]. rewrite Ec in H.
      eapply chain_eq; [|eapply (chain_step _ _ _ _ _ a f (c0 :: b) (RF (rf_id f) (rf_end f) 0 ones 0) [] h no_section);
        [exact H|exact Hid|exact Hid|right; reflexivity|]].
      * intros x. rewrite T. cbn [revent track1]. destruct (N.eqb_spec h x) as [->|]; reflexivity.
      * repeat split; reflexivity.
    + apply Other_same; try reflexivity; intros x; rewrite T; reflexivity.
Qed.

Lemma rhist_ok e s hist st : rhist e s hist st -> no_failed_array hist -> rok hist st.
Proof.
  induction 1 as [|hist st c r st' H IH E]; intros Hf.
  - unfold rok, r_open. cbn [r_chain r_next]. split; [|split; [|split]].
    + cbn. repeat split; reflexivity.
    + cbn. constructor; [intros []|constructor].
    + repeat constructor.
    + intros x _. reflexivity.
  - apply Forall_app in Hf. destruct Hf as (Hf1 & Hf2). eapply rok_step; [exact (IH Hf1)|exact Hf2|exact E].
Qed.

Lemma r_in_array e s hist st h arg i opt : rhist e s hist st -> no_failed_array hist -> rlive h st ->
  let g := rtrack h hist in
  (arg = os_active g /\ i = os_begun g /\ i < os_size g ->
     match r_begin_in h arg i true st with Done (ok, _, _) => ok = true | _ => True end) /\
  (arg <> os_active g \/ i <> os_begun g \/ os_size g <= i -> r_begin_in h arg i opt st = Done (false, false, st)).
Proof.
  intros H Hnf Hl g. pose proof (rhist_ok _ _ _ _ H Hnf) as K. destruct (live_split rf_id h _ Hl) as (a & f & b & Es).
  destruct (split_chain _ _ _ _ _ _ _ _ _ _ K Es) as (Ec & Hid & (F1 & F2 & F3 & F4) & _). fold g in F1, F2, F3.
  unfold r_begin_in. rewrite Es, <- F1, <- F2, <- F3. split.
  - intros (-> & -> & Hi). rewrite hdl_refl, N.eqb_refl. cbn [negb].
    destruct (N.leb_spec (os_size g) (os_begun g)) as [X|_]; [lia|].
    destruct (rs_u64 (r_stream st)) as [[sz s1]| |] eqn:Ew; cbn [bind]; try exact I. reflexivity.
  - intros Hc. destruct (hdl_eqb (os_active g) arg) eqn:E1; cbn [negb]; [|reflexivity]. apply hdl_eqb_eq in E1.
    destruct (N.eqb_spec (os_begun g) i) as [E2|E2]; cbn [negb]; [|reflexivity].
    destruct (N.leb_spec (os_size g) i) as [X|X]; [reflexivity|].
    destruct Hc as [Hc|[Hc|Hc]]; [congruence|congruence|lia].
Qed.

Lemma r_end_array e s hist st h arg : rhist e s hist st -> no_failed_array hist -> rlive h st ->
  let g := rtrack h hist in
  arg <> os_active g \/ os_begun g <> os_size g -> r_end_arr h arg st = Done (false, st).
Proof.
  intros H Hnf Hl g Hc. pose proof (rhist_ok _ _ _ _ H Hnf) as K. destruct (live_split rf_id h _ Hl) as (a & f & b & Es).
  destruct (split_chain _ _ _ _ _ _ _ _ _ _ K Es) as (Ec & Hid & (F1 & F2 & F3 & F4) & _). fold g in F1, F2, F3.
  unfold r_end_arr. rewrite Es, <- F1, <- F2, <- F3.
  destruct (hdl_eqb (os_active g) arg) eqn:E1; cbn [negb]; [|reflexivity]. apply hdl_eqb_eq in E1.
  destruct (N.eqb_spec (os_begun g) (os_size g)) as [E2|E2]; cbn [negb]; [|reflexivity].
  destruct Hc; congruence.
Qed.

Lemma r_other_handle e s hist st h arg i : rhist e s hist st -> no_failed_array hist -> rlive h st ->
  let g := rtrack h hist in
  arg <> os_active g -> r_end h arg st = Done (false, st) /\ r_end_in h arg i st = Done (false, st).
Proof.
  intros H Hnf Hl g Hc. pose proof (rhist_ok _ _ _ _ H Hnf) as K. destruct (live_split rf_id h _ Hl) as (a & f & b & Es).
  destruct (split_chain _ _ _ _ _ _ _ _ _ _ K Es) as (Ec & Hid & (F1 & F2 & F3 & F4) & _). fold g in F1, F2, F3.
  unfold r_end, r_end_in. rewrite Es, <- F1. rewrite hdl_eqb_neq by congruence. split; reflexivity.
Qed.

Lemma r_already_open e s hist st h key nok ix : rhist e s hist st -> no_failed_array hist -> rlive h st ->
  os_active (rtrack h hist) <> None ->
  r_begin e h key nok st = Done (None, false, st) /\ r_begin_arr e h key nok ix st = Done (None, 0, false, ix, st).
Proof.
  intros H Hnf Hl Hc. pose proof (rhist_ok _ _ _ _ H Hnf) as K. destruct (live_split rf_id h _ Hl) as (a & f & b & Es).
  destruct (split_chain _ _ _ _ _ _ _ _ _ _ K Es) as (Ec & Hid & (F1 & F2 & F3 & F4) & _).
  unfold r_begin, r_begin_arr. rewrite Es. destruct b; [cbn in F1; congruence|]. split; reflexivity.
Qed.

(** The end of an element names the element begun last. *)
Lemma w_end_in_refused s hist st h arg i : whist s hist st -> wlive h st ->
  let g := wtrack h hist in
  arg <> os_active g \/ (i + 1) mod two64 <> os_begun g -> w_end_in h arg i st = Done (false, st).
Proof.
  intros H Hl g Hc. pose proof (whist_ok _ _ _ H) as K. destruct (live_split wf_id h _ Hl) as (a & f & b & Es).
  destruct (split_chain _ _ _ _ _ _ _ _ _ _ K Es) as (Ec & Hid & (F1 & F2 & F3 & F4) & _). fold g in F1, F2, F3.
  unfold w_end_in. rewrite Es, <- F1.
  destruct (hdl_eqb (os_active g) arg) eqn:E1; cbn [negb orb]; [|reflexivity]. apply hdl_eqb_eq in E1.
  destruct (N.eqb_spec (wf_index f) i) as [E2|E2]; cbn [negb]; [|reflexivity].
  destruct Hc as [Hc|Hc]; [congruence|]. exfalso. apply Hc. rewrite F3, E2. reflexivity.
Qed.
Lemma r_end_in_refused e s hist st h arg i : rhist e s hist st -> no_failed_array hist -> rlive h st ->
  let g := rtrack h hist in
  arg <> os_active g \/ (i + 1) mod two64 <> os_begun g -> r_end_in h arg i st = Done (false, st).
Proof.
  intros H Hn Hl g Hc. pose proof (rhist_ok _ _ _ _ H Hn) as K. destruct (live_split rf_id h _ Hl) as (a & f & b & Es).
  destruct (split_chain _ _ _ _ _ _ _ _ _ _ K Es) as (Ec & Hid & (F1 & F2 & F3 & F4) & _). fold g in F1, F2, F3.
  unfold r_end_in. rewrite Es, <- F1.
  destruct (hdl_eqb (os_active g) arg) eqn:E1; cbn [negb orb]; [|reflexivity]. apply hdl_eqb_eq in E1.
  destruct (N.eqb_spec (rf_index f) i) as [E2|E2]; cbn [negb]; [|reflexivity].
  destruct Hc as [Hc|Hc]; [congruence|]. exfalso. apply Hc. rewrite F3, E2. reflexivity.
Qed.
