(** * Reading objects of classes from arbitrary bytes. *)
From Coq Require Import Sorting.Permutation.
From Verif Require Import Base Bytes BytesFacts Values Streams FileSpec ReadSpec StreamFacts StreamProps Types Format
  Accept EntityWriter EntityReader EntityWriterFacts PackFacts ArrayWriterFacts EntityReaderFacts EntitySafety ArraySafety
  ReadTotal ItemSpec ReadValid Sections Validator Keys KeySpec KeyFacts Containers StdSet StdSetFacts Graph GraphSpec GraphSets Classes Table TableSpec
  TableFacts IndexedVector IndexedVectorSpec DynTypes DynTypesFacts Varying VaryingSpec VaryingCodec EntityGen EntitySpec EntityFacts ReadAnySpec Damage DamageFacts.
Local Open Scope N_scope.

(** ** The objects of a reader *)
Definition ids (st : rstate) : list N := map rf_id (r_chain st).
(** The reader [h] exists, behind the readers [l]; new readers are different from all of them. *)
Definition st_at (p r : list byte) (fl : bool) (l : list N) (h : N) (st : rstate) : Prop :=
  r_stream st = rs_at p r fl /\ (exists b, ids st = l ++ h :: b) /\ NoDup (ids st) /\ Forall (fun i => i < r_next st) (ids st).
Definition onward (p r : list byte) (fl : bool) (l : list N) (h : N) (st : rstate) : Prop :=
  exists p' r', within p r fl (rs_at p' r' fl) /\ st_at p' r' fl l h st.

Lemma split_ids (h : N) : forall l (c : list rframe) b, map rf_id c = l ++ h :: b -> ~ In h l ->
  exists a f d, c = a ++ f :: d /\ map rf_id a = l /\ rf_id f = h /\ map rf_id d = b /\ split_at rf_id h c = Some (a, f, d).
Proof.
  induction l as [|x l IH]; intros c b E Hn; destruct c as [|f c]; cbn in E; try discriminate; inversion E; subst.
  - exists [], f, c. cbn. rewrite N.eqb_refl. auto.
  - destruct (IH c b ltac:(assumption)) as (a & g & d & -> & A & B & C & D); [intros X; apply Hn; right; exact X|].
    exists (f :: a), g, d. cbn. rewrite A. repeat split; auto.
    destruct (N.eqb_spec (rf_id f) h) as [X|X]; [exfalso; apply Hn; left; exact X|]. rewrite D. reflexivity.
Qed.
Lemma nodup_mid {A} (l b : list A) h : NoDup (l ++ h :: b) -> ~ In h l.
Proof. intros H X. apply NoDup_remove_2 in H. apply H. apply in_or_app. auto. Qed.

Lemma st_split p r fl l h st : st_at p r fl l h st ->
  exists a f d, r_chain st = a ++ f :: d /\ map rf_id a = l /\ rf_id f = h /\ split_at rf_id h (r_chain st) = Some (a, f, d).
Proof.
  intros (_ & (b & E) & Hn & _). rewrite E in Hn. apply nodup_mid in Hn.
  destruct (split_ids h _ _ _ E Hn) as (a & f & d & A & B & C & D & F). exists a, f, d. auto.
Qed.
(** The parent of [hc] is [h]. *)
Lemma st_parent p r fl l h hc st : st_at p r fl (l ++ [h]) hc st ->
  exists a f g d, r_chain st = a ++ f :: g :: d /\ map rf_id a = l /\ rf_id f = h /\ rf_id g = hc /\
    split_at rf_id h (r_chain st) = Some (a, f, g :: d).
Proof.
  intros (_ & (b & E) & Hn & _). rewrite <- app_assoc in E. cbn [app] in E. rewrite E in Hn. apply nodup_mid in Hn.
  destruct (split_ids h _ _ _ E Hn) as (a & f & d & A & B & C & D & F).
  destruct d as [|g d]; cbn in D; inversion D; subst. exists a, f, g, d. auto.
Qed.
Lemma st_up p r fl l h hc st : st_at p r fl (l ++ [h]) hc st -> st_at p r fl l h st.
Proof.
  intros (S & (b & E) & Hn & F). split; [exact S|]. rewrite <- app_assoc in E. cbn [app] in E. split; [eauto|]. auto.
Qed.
Lemma onward_up p r fl l h hc st : onward p r fl (l ++ [h]) hc st -> onward p r fl l h st.
Proof. intros (p' & r' & W & S). exists p', r'. split; [exact W|eapply st_up; exact S]. Qed.
Lemma onward_self p r fl l h st : st_at p r fl l h st -> onward p r fl l h st.
Proof. intros S. exists p, r. split; [apply within_self|exact S]. Qed.
Lemma onward_trans p r fl l h p' r' l' h' st : within p r fl (rs_at p' r' fl) -> onward p' r' fl l' h' st -> (forall a b, st_at a b fl l' h' st -> st_at a b fl l h st) ->
  onward p r fl l h st.
Proof.
  intros W (p2 & r2 & W2 & S) H. exists p2, r2. split; [|apply H; exact S].
  eapply within_step; eassumption.
Qed.
Lemma st_move p r fl l h st p' r' : st_at p r fl l h st -> st_at p' r' fl l h (RSt (rs_at p' r' fl) (r_chain st) (r_next st)).
Proof. intros (_ & E & Hn & F). split; [reflexivity|]. auto. Qed.
Lemma st_frames p r fl l h st p' r' c : st_at p r fl l h st -> map rf_id c = ids st ->
  st_at p' r' fl l h (RSt (rs_at p' r' fl) c (r_next st)).
Proof. intros (_ & E & Hn & F) Hc. unfold st_at, ids in *. cbn [r_stream r_chain r_next]. rewrite Hc. auto. Qed.
(** A new reader behind [h]. *)
Lemma st_child p r fl l h st p' r' a f f' g : st_at p r fl l h st -> r_chain st = a ++ [f] -> map rf_id a = l -> rf_id f = h ->
  rf_id f' = h -> rf_id g = r_next st ->
  st_at p' r' fl (l ++ [h]) (r_next st) (RSt (rs_at p' r' fl) (a ++ [f'; g]) (r_next st + 1)).
Proof.
  intros (_ & _ & Hn & F) Hc Ha Hf Hf' Hg. unfold st_at, ids in *. cbn [r_stream r_chain r_next]. rewrite Hc in Hn, F.
  rewrite map_app in *. cbn [map] in *. rewrite Ha, Hf in *. rewrite Hf', Hg.
  replace (l ++ [h; r_next st]) with ((l ++ [h]) ++ [r_next st]) by (rewrite <- app_assoc; reflexivity).
  split; [reflexivity|]. split; [exists []; reflexivity|]. split.
  - apply NoDup_Add with (a := r_next st) (l := l ++ [h]); [|split; [exact Hn|]].
    + replace (l ++ [h]) with ((l ++ [h]) ++ []) at 1 by apply app_nil_r. apply Add_app.
    + intros X. rewrite Forall_forall in F. specialize (F _ X). lia.
  - apply Forall_app. split; [eapply Forall_impl; [|exact F]; cbn; intros; lia|constructor; [lia|constructor]].
Qed.
(** The readers behind [h] are dropped. *)
Lemma st_drop p r fl l h st a f d f' : st_at p r fl l h st -> r_chain st = a ++ f :: d -> map rf_id a = l -> rf_id f = h -> rf_id f' = h ->
  st_at p r fl l h (RSt (r_stream st) (a ++ [f']) (r_next st)).
Proof.
  intros (S & _ & Hn & F) Hc Ha Hf Hf'. unfold st_at, ids in *. cbn [r_stream r_chain r_next]. rewrite Hc in Hn, F.
  rewrite map_app in *. cbn [map] in *. rewrite Ha, Hf in *. rewrite Hf'. split; [exact S|]. split; [exists []; reflexivity|].
  change (h :: map rf_id d) with ([h] ++ map rf_id d) in *. rewrite app_assoc in *. split.
  - clear - Hn. induction (l ++ [h]) as [|x m IH]; [constructor|]. cbn in Hn. inversion Hn; subst. constructor; [|apply IH; assumption].
    intros X. apply H1. apply in_or_app. auto.
  - apply Forall_app in F. apply F.
Qed.

(** ** The data that are read *)
Section Data.
(** The environment, the data, its byte order and the position where reading begins. *)
Context (e : renv) (D : list byte) (fl : bool) (P0 : N) (He : e_small e).
Definition here (p r : list byte) : Prop := small_rs p r /\ p ++ r = D /\ P0 <= len p.
Lemma here_small p r : here p r -> small_rs p r.
Proof. intros H. apply H. Qed.
Lemma within_here p r p' r' : within p r fl (rs_at p' r' fl) -> here p r -> here p' r'.
Proof.
  intros W (H1 & H2 & H3). split; [eapply within_small; eassumption|]. destruct W as (a & b & -> & E1). apply rs_at_inj in E1.
  destruct E1 as (-> & ->). rewrite <- app_assoc, len_app. split; [exact H2|lia].
Qed.
Definition calls := list byte -> dtype -> ctype -> Prop.
Definition only (n : list byte) (t : dtype) (c : ctype) : calls := fun n' t' c' => n' = n /\ t' = t /\ c' = c.
Notation throws C := (refused (e_lim e) D fl P0 C).
Notation undefs C := (overrun D fl P0 C).
Lemma throws_sub (C C' : calls) : (forall n t c, C n t c -> C' n t c) -> throws C -> throws C'.
Proof. intros H (n & t & c & A & B). exists n, t, c. auto. Qed.
Lemma undefs_sub (C C' : calls) : (forall n t c, C n t c -> C' n t c) -> undefs C -> undefs C'.
Proof. intros H (n & t & c & q & A & B). exists n, t, c, q. auto. Qed.

Ltac dmg := first [tauto | apply throws_sub; unfold only; cbn [s_asks f_asks]; tauto | apply undefs_sub; unfold only; cbn [s_asks f_asks]; tauto
  | apply throws_sub; unfold only; cbn [s_asks f_asks]; intros ? ? ? (-> & -> & ->); subst; tauto
  | apply undefs_sub; unfold only; cbn [s_asks f_asks]; intros ? ? ? (-> & -> & ->); subst; tauto].

(** ** The calls *)
Lemma size_damage_ctype f pos t d key bs : size_damage f pos t d key bs -> size_damage f pos t (cval_default t (cval_ctype d)) key bs.
Proof. destruct d; exact (fun x => x). Qed.
Lemma meta_no_index ee c0 b p r f : small_rs p r -> read_meta ee c0 b None (rs_at p r f) <> Throw.
Proof.
  intros Hs. assert (G : wp (read_meta ee c0 b None (rs_at p r f)) (fun _ => True) False).
  { unfold read_meta. apply wp_bind. eapply wp_impl; [apply (rs_word_w W16); exact Hs| |tauto].
    intros [v s1] (_ & p1 & r1 & -> & W1 & _). destruct (negb (N.land v 512 =? 0)); [exact Logic.I|].
    apply wp_bind. eapply wp_impl; [apply (rs_word_w W64); eapply within_small; eassumption| |tauto].
    intros [v2 s2] _. destruct (negb (N.land v 256 =? 0)); exact Logic.I. }
  intros X. rewrite X in G. exact G.
Qed.
Lemma r_read_any p r l h t key dest st : name_ok key -> here p r -> st_at p r fl l h st ->
  cval_ok t dest -> replaced t dest ->
  wpu (r_read e h t key dest st) (fun q => let '(_, v, st') := q in
    onward p r fl l h st' /\ cval_ok t v /\ cval_ctype v = cval_ctype dest)
    (throws (only key t (cval_ctype dest))) (undefs (only key t (cval_ctype dest))).
Proof.
  intros (Hk0 & Hk) Hs Hst Hd Hr. unfold r_read. destruct (st_split _ _ _ _ _ _ Hst) as (a & f & d & _ & _ & _ & ->).
  pose proof (er_read_gen e t key dest p r fl Hk Hk0 (here_small _ _ Hs) He Hd) as G. pose proof (er_read_valid e t key dest (rs_at p r fl) He Hd Hr) as V.
  pose proof (er_read_throw e t key dest p r fl Hk Hk0 (here_small _ _ Hs) He Hd) as Q. destruct Hs as (Hs & HD & HP).
  assert (HL : len D = len p + len r) by (rewrite <- HD; apply len_app).
  assert (HR : drop (len p) D = r) by (rewrite <- HD; apply drop_len_app).
  assert (HA : is_array dest -> array_type (cval_ctype dest)) by (destruct dest; exact (fun x => x)).
  rewrite (proj1 Hst). destruct (er_read e t key dest (rs_at p r fl)) as [[[ok v] s1]| |]; cbn [wpu bind gives] in *; auto.
  - destruct G as ((x & y & -> & ->) & _). split; [|exact V]. exists (p ++ x), y. split; [exists x, y; auto|].
    eapply st_move; exact Hst.
  - exists key, t, (cval_ctype dest). split; [repeat split|]. split; [tauto|]. destruct Q as [Q|Q]; [left|right].
    + unfold short in Q. rewrite HL. exact Q.
    + exists (len p). split; [lia|]. rewrite HR. apply size_damage_ctype; exact Q.
  - destruct Q as (Q1 & Q). exists key, t, (cval_ctype dest), (len p). split; [repeat split|]. split; [tauto|]. split; [lia|]. rewrite HR. exact Q.
Qed.

Lemma r_begin_any p r l h key nok st : name_ok key -> here p r -> st_at p r fl l h st ->
  wpu (r_begin e h key nok st) (fun q => let '(c, ok, st') := q in
    match c with Some hc => ok = true /\ onward p r fl (l ++ [h]) hc st' | None => (nok = false -> ok = false) /\ onward p r fl l h st' end) False False.
Proof.
  intros (Hk0 & Hk) Hs Hst. unfold r_begin. destruct (st_split _ _ _ _ _ _ Hst) as (a & f & d & Hc & Ha & Hf & ->).
  destruct d as [|g d]; [|cbn [wpu]; split; [auto|apply onward_self; exact Hst]].
  rewrite (proj1 Hst). apply wpu_bind. eapply wpu_impl; [apply wp_wpu with (U := False), begin_read_gen; try assumption; try reflexivity; apply Hs| |dmg|dmg].
  intros [endp s1] ((x & y & -> & ->) & _).
  assert (W : within p (x ++ y) fl (rs_at (p ++ x) y fl)) by (exists x, y; auto).
  destruct (endp =? 0); [|destruct (endp =? rs_pos _)]; cbn [wpu].
  - split; [auto|]. exists (p ++ x), y. split; [exact W|eapply st_move; exact Hst].
  - split; [intros ->; reflexivity|]. exists (p ++ x), y. split; [exact W|eapply st_move; exact Hst].
  - split; [reflexivity|]. exists (p ++ x), y. split; [exact W|]. eapply st_child; try eassumption; reflexivity.
Qed.

Lemma hdl_refl c : hdl_eqb c c = true.
Proof. destruct c; [apply N.eqb_refl|reflexivity]. Qed.
Lemma r_end_any p r l h hc st : st_at p r fl (l ++ [h]) hc st ->
  wpu (r_end h (Some hc) st) (fun q => onward p r fl l h (snd q)) False False.
Proof.
  intros Hst. unfold r_end. destruct (st_parent _ _ _ _ _ _ _ Hst) as (a & f & g & d & Hc & Ha & Hf & Hg & ->).
  cbn [head_id]. rewrite Hg, hdl_refl. cbn [negb]. destruct (end_read _ _); cbn [wpu snd]; apply onward_self; [|apply st_up in Hst; exact Hst].
  eapply st_drop; [apply st_up in Hst; exact Hst|exact Hc|exact Ha|exact Hf|exact Hf].
Qed.

Lemma r_begin_arr_any p r l h key st : name_ok key -> here p r -> st_at p r fl l h st ->
  wpu (r_begin_arr e h key false None st) (fun q => let '(c, _, ok, _, st') := q in
    match c with Some hc => onward p r fl (l ++ [h]) hc st' | None => ok = false /\ onward p r fl l h st' end) False False.
Proof.
  intros (Hk0 & Hk) Hs Hst. unfold r_begin_arr. destruct (st_split _ _ _ _ _ _ Hst) as (a & f & d & Hc & Ha & Hf & ->).
  destruct d as [|g d]; [|cbn [wpu]; split; [reflexivity|apply onward_self; exact Hst]].
  rewrite (proj1 Hst). apply wpu_bind. eapply wpu_impl; [apply wp_wpu with (U := False), begin_read_gen; try assumption; try reflexivity; apply Hs| |dmg|dmg].
  intros [endp s1] ((x & y & -> & ->) & _).
  assert (W : within p (x ++ y) fl (rs_at (p ++ x) y fl)) by (exists x, y; auto).
  destruct (endp =? 0); [|destruct (endp =? rs_pos _)]; cbn [wpu].
  - split; [reflexivity|]. exists (p ++ x), y. split; [exact W|eapply st_move; exact Hst].
  - split; [reflexivity|]. exists (p ++ x), y. split; [exact W|eapply st_move; exact Hst].
  - assert (Hs1 : small_rs (p ++ x) y) by (apply here_small; eapply within_here; eassumption).
    pose proof (read_meta_gen e (rf_size f) endp None (p ++ x) y fl Hs1 ltac:(unfold e_small, lim62 in *; lia)) as G.
    pose proof (meta_no_index e (rf_size f) endp (p ++ x) y fl Hs1) as NT.
    apply wpu_bind. apply wpu_impl with (P := fun res => let '(ok, per, count, ix, s') := res in
      exists p' r', s' = rs_at p' r' fl /\ within (p ++ x) y fl (rs_at p' r' fl)) (T := False) (U := False); [| |tauto|tauto].
    { destruct (read_meta _ _ _ _ _) as [[[[[ok per] count] ix] s2]| |]; cbn [wp wpu] in *; [|destruct (NT eq_refl)|exact G].
      destruct G as (p2 & r2 & -> & W2 & _). eauto. }
    intros [[[[ok per] count] ix] s2] (p2 & r2 & -> & W2). assert (W3 := within_step _ _ _ _ _ _ W W2).
    destruct ok; cbn [negb wpu].
    + exists p2, r2. split; [exact W3|]. eapply st_child; try eassumption; reflexivity.
    + split; [reflexivity|]. exists p2, r2. split; [exact W3|]. eapply st_frames; [exact Hst|].
      unfold ids. rewrite Hc, !map_app. reflexivity.
Qed.

Lemma r_begin_in_any p r l h hc i o st : here p r -> st_at p r fl (l ++ [h]) hc st ->
  wpu (r_begin_in h (Some hc) i o st) (fun q => onward p r fl (l ++ [h]) hc (snd q)) False False.
Proof.
  intros Hs Hst. unfold r_begin_in. destruct (st_parent _ _ _ _ _ _ _ Hst) as (a & f & g & d & Hc & Ha & Hf & Hg & ->).
  cbn [head_id]. rewrite Hg, hdl_refl. cbn [negb].
  destruct (negb _); [apply onward_self; exact Hst|]. destruct (rf_size f <=? i); [apply onward_self; exact Hst|].
  rewrite (proj1 Hst). apply wpu_bind. eapply wpu_impl; [apply wp_wpu with (U := False), (rs_word_w W64); exact (here_small _ _ Hs)| |dmg|dmg].
  intros [size s1] (_ & p1 & r1 & -> & W & _). cbn zeta.
  assert (X : onward p r fl (l ++ [h]) hc (RSt (rs_at p1 r1 fl)
    (a ++ RF (rf_id f) (rf_end f) (rf_size f) i (add64 (rs_pos (rs_at p1 r1 fl)) size) :: g :: d) (r_next st))).
  { exists p1, r1. split; [exact W|]. eapply st_frames; [exact Hst|]. unfold ids. rewrite Hc, !map_app. reflexivity. }
  destruct o; [exact X|]. destruct (size =? 0); exact X.
Qed.
Lemma r_end_in_any p r l h hc i st : st_at p r fl (l ++ [h]) hc st ->
  wpu (r_end_in h (Some hc) i st) (fun q => snd q = st) False False.
Proof.
  intros Hst. unfold r_end_in. destruct (st_parent _ _ _ _ _ _ _ Hst) as (a & f & g & d & Hc & Ha & Hf & Hg & ->).
  destruct (_ || _); reflexivity.
Qed.
Lemma r_end_arr_any p r l h hc st : st_at p r fl (l ++ [h]) hc st ->
  wpu (r_end_arr h (Some hc) st) (fun q => onward p r fl l h (snd q)) False False.
Proof.
  intros Hst. unfold r_end_arr. destruct (st_parent _ _ _ _ _ _ _ Hst) as (a & f & g & d & Hc & Ha & Hf & Hg & ->).
  cbn [head_id]. rewrite Hg, hdl_refl. cbn [negb]. pose proof (st_up _ _ _ _ _ _ _ Hst) as Hu.
  destruct (negb _); [apply onward_self; exact Hu|]. destruct (end_read _ _); cbn [wpu snd]; apply onward_self; [|exact Hu].
  eapply st_drop; [exact Hu|exact Hc|exact Ha|exact Hf|exact Hf].
Qed.

(** ** Classes *)
Definition reads_any {T} (M : mf T) (Ok Dst Fits : T -> Prop) (C : calls) : Prop :=
  forall p r l h st x, here p r -> st_at p r fl l h st -> Ok x -> Dst x ->
    wpu (m_read M e h x st) (fun q => let '(ok, y, st') := q in onward p r fl l h st' /\ Ok y /\ (ok = true -> Fits y)) (throws C) (undefs C).

Lemma insert_pairs_ok {K} (Ko : keyops K) : key_laws Ko -> forall n l g, (length l <= n)%nat -> is_graph Ko g -> is_graph Ko (insert_pairs Ko l g).
Proof.
  intros KL n. induction n as [|n IH]; intros l g Hn Hg; destruct l as [|a [|b l]]; cbn [length] in Hn; try lia; cbn [insert_pairs]; try exact Hg.
  apply IH; [lia|]. destruct Hg as (A & B). split; [exact A|]. unfold insert_edge. cbn [g_edges g_roots].
  apply insert_sorted; [apply pair_lt_order, KL|exact B].
Qed.
Lemma set_insert_length {A} (lt : A -> A -> bool) x l : (length (set_insert lt x l) <= S (length l))%nat.
Proof. induction l as [|y l IH]; cbn [set_insert]; [cbn; lia|]. destruct (lt x y); [|destruct (lt y x)]; cbn [length] in *; lia. Qed.
Lemma set_of_length {A} (lt : A -> A -> bool) l : (length (set_of lt l) <= length l)%nat.
Proof.
  unfold set_of. enough (forall s, (length (fold_left (fun s x => set_insert lt x s) l s) <= length l + length s)%nat) as H by (specialize (H []); cbn [length] in H; lia).
  induction l as [|x l IH]; intros s; cbn [fold_left length]; [lia|]. specialize (IH (set_insert lt x s)). pose proof (set_insert_length lt x s). lia.
Qed.
Lemma insert_pairs_length {K} (Ko : keyops K) : forall n l g, (length l <= n)%nat ->
  g_roots (insert_pairs Ko l g) = g_roots g /\ (2 * length (g_edges (insert_pairs Ko l g)) <= length l + 2 * length (g_edges g))%nat.
Proof.
  induction n as [|n IH]; intros l g Hn; destruct l as [|a [|b l]]; cbn [length] in Hn; try lia; cbn [insert_pairs length]; try (split; [reflexivity|lia]).
  destruct (IH l (insert_edge Ko a b g)) as (A & B); [lia|]. split; [exact A|]. unfold insert_edge in B at 2. cbn [g_edges] in B.
  pose proof (set_insert_length (pair_lt (k_lt Ko)) (a, b) (g_edges g)). lia.
Qed.
Lemma keys_of_length {K} (Ko : keyops K) t c : cval_ok t c -> len (keys_of Ko c) < 2^63.
Proof. destruct c; cbn [keys_of]; try reflexivity. intros (_ & H). rewrite len_map. exact H. Qed.
Lemma kt_not_multi k : ~ multi_component (kt k).
Proof. pose proof (kt_key k) as H. destruct (kt k); try discriminate H; cbn; try lia; exact (fun x => x). Qed.
Lemma replaced_vec_nil t : replaced t (CVec []).
Proof. destruct t; exact Logic.I || reflexivity. Qed.
Lemma cval_ok_nil t : cval_ok t (CVec []).
Proof. apply vec_ok_nil. Qed.

Lemma graph_any k f : reads_any (graph_mf (kops k) f) (is_graph (kops k)) (fun _ => True) graph_fits (s_asks (SGraph k f)).
Proof.
  intros p r l h st x Hs Hst Hx _. cbn [graph_mf m_read]. unfold g_read. pose proof (klaws k) as KL.
  assert (N1 : name_ok key_roots) by (split; vm_compute; congruence).
  assert (N2 : name_ok key_edges) by (split; vm_compute; congruence).
  apply wpu_bind. eapply wpu_impl; [eapply r_read_any; [exact N1|exact Hs|exact Hst|apply cval_ok_nil|apply replaced_vec_nil]| |dmg|dmg].
  intros [[ok roots] st1] ((p1 & r1 & W1 & S1) & V1 & _). destruct ok; [|cbn [wpu]; split; [exists p1, r1; auto|split; [exact Hx|discriminate]]].
  assert (Hg1 : is_set (k_lt (kops k)) (set_of (k_lt (kops k)) (keys_of (kops k) roots))) by (apply set_of_sorted, KL).
  apply wpu_bind. eapply wpu_impl; [eapply r_read_any; [exact N2|eapply within_here; eassumption|exact S1|apply cval_ok_nil|apply replaced_vec_nil]| |dmg|dmg].
  intros [[ok2 pairs] st2] ((p2 & r2 & W2 & S2) & V2 & _).
  assert (O : onward p r fl l h st2) by (exists p2, r2; split; [eapply within_step; eassumption|exact S2]).
  destruct ok2; cbn [wpu]; (split; [exact O|]).
  - split; [eapply insert_pairs_ok; [exact KL|apply le_n|]; split; [exact Hg1|constructor]|]. intros _.
    destruct (insert_pairs_length (kops k) _ (keys_of (kops k) pairs) (Graph (set_of (k_lt (kops k)) (keys_of (kops k) roots)) []) (le_n _)) as (A & B).
    cbn [g_edges g_roots] in *. apply (keys_of_length (kops k)) in V1, V2.
    pose proof (set_of_length (k_lt (kops k)) (keys_of (kops k) roots)). unfold graph_fits, len in *. rewrite A. cbn [length] in B. lia.
  - split; [|discriminate]. split; [exact Hg1|]. apply Hx.
Qed.

Section Table.
Context (k : ktype) (U : umap_impl (kkey k)) {T : Type} (M : mf T) (Ok Dst Fits : T -> Prop) (C : calls)
  (HM : reads_any M Ok Dst Fits C) (Hnew : Ok (m_new M)) (Hdst : Dst (m_new M)).
Notation Ko := (kops k).
Definition tab_all (Q : T -> Prop) (m : table (kkey k) T) : Prop := forall i x, In (i, Some x) (t_list m) -> Q x.
Definition tab_ok (m : table (kkey k) T) : Prop := is_table m /\ tab_all Ok m.
Definition tab_fits (m : table (kkey k) T) : Prop := len (t_list m) < 2^63 /\ tab_all Fits m.

Lemma tab_emplace i v (m m' : table (kkey k) T) b : is_table m -> t_emplace Ko U i v m = (m', b) ->
  is_table m' /\ ((b = false /\ m' = m) \/ (b = true /\ Permutation (t_list m') ((i, v) :: t_list m))).
Proof.
  intros A E. pose proof (emplace_spec Ko (klaws k) U i v m A) as S. destruct (t_find Ko i m).
  - rewrite S in E. inversion E; subst. auto.
  - destruct S as (m2 & E2 & S1 & P & _). rewrite E2 in E. inversion E; subst. auto.
Qed.
Lemma all_perm (Q : T -> Prop) (m m' : table (kkey k) T) i v : tab_all Q m -> match v with Some x => Q x | None => True end ->
  Permutation (t_list m') ((i, v) :: t_list m) -> tab_all Q m'.
Proof.
  intros A Hv P j x Hj. apply (Permutation_in _ P) in Hj. destruct Hj as [X|X]; [|eapply A; exact X]. inversion X; subst. exact Hv.
Qed.
Lemma all_assign (Q : T -> Prop) i x (m : table (kkey k) T) : tab_all Q m -> Q x -> tab_all Q (t_assign Ko i (Some x) m).
Proof.
  intros B Hx j y Hj. unfold t_assign in Hj. cbn [t_list] in Hj.
  apply in_map_iff in Hj. destruct Hj as ([a o] & E & Hin). cbn [fst] in E. destruct (k_eq Ko i a).
  - inversion E; subst. exact Hx.
  - inversion E; subst. eapply B; exact Hin.
Qed.
(** Assigning to the key just inserted. *)
Lemma all_put (Q : T -> Prop) i x v (m m1 : table (kkey k) T) : is_table m1 -> tab_all Q m -> Q x ->
  Permutation (t_list m1) ((i, v) :: t_list m) -> tab_all Q (t_assign Ko i (Some x) m1).
Proof.
  intros S B Hx P j y Hj. unfold t_assign in Hj. cbn [t_list] in Hj.
  apply in_map_iff in Hj. destruct Hj as ([a o] & E & Hin). cbn [fst] in E.
  destruct (k_eq Ko i a) eqn:Ea; [inversion E; subst; exact Hx|]. inversion E; subst.
  apply (Permutation_in _ P) in Hin. destruct Hin as [X|X]; [|eapply B; exact X].
  inversion X; subst. rewrite (proj2 (proj1 (proj2 (klaws k)) j j) eq_refl) in Ea. discriminate.
Qed.

Lemma entries_any l h hc ks : forall i p r (m : table (kkey k) T) st, here p r -> st_at p r fl (l ++ [h]) hc st -> tab_ok m ->
  wpu (t_read_entries Ko U M e h (Some hc) i ks m st) (fun q => let '(ok, m', st') := q in onward p r fl (l ++ [h]) hc st' /\ tab_ok m' /\
    (ok = true -> tab_all Fits m -> tab_all Fits m' /\ len (t_list m') = len (t_list m) + len ks)) (throws C) (undefs C).
Proof.
  induction ks as [|kk ks IH]; intros i p r m st Hs Hst Hm; cbn [t_read_entries].
  { cbn [wpu]. split; [apply onward_self; exact Hst|]. split; [exact Hm|]. intros _ H. split; [exact H|]. change (len (@nil (kkey k))) with 0. lia. }
  apply wpu_bind. eapply wpu_impl; [eapply r_begin_in_any; [exact Hs|exact Hst]| |dmg|dmg].
  intros [[ok has] st1] (p1 & r1 & W1 & S1). cbn [snd] in S1.
  assert (O1 : onward p r fl (l ++ [h]) hc st1) by (exists p1, r1; auto).
  destruct (negb ok); [cbn [wpu]; split; [exact O1|split; [exact Hm|discriminate]]|].
  destruct (t_emplace Ko U kk (if has then Some (m_new M) else None) m) as [m1 ins] eqn:E.
  destruct (tab_emplace _ _ _ _ _ (proj1 Hm) E) as (T1 & Hins).
  assert (Hm1 : tab_ok m1).
  { split; [exact T1|]. destruct Hins as [(_ & ->)|(_ & P)]; [apply Hm|]. eapply all_perm; [apply Hm| |exact P]. destruct has; [exact Hnew|exact Logic.I]. }
  destruct Hins as [(-> & _)|(-> & P)]; cbn [negb]; [cbn [wpu]; split; [exact O1|split; [exact Hm1|discriminate]]|].
  apply wpu_bind. apply wpu_impl with (P := fun q => let '(ok2, m2, st2) := q in onward p r fl (l ++ [h]) hc st2 /\ tab_ok m2 /\
    (ok2 = true -> tab_all Fits m -> tab_all Fits m2 /\ len (t_list m2) = len (t_list m) + 1)) (T := throws C) (U := undefs C); [| |dmg|dmg].
  { assert (L1 : len (t_list m1) = len (t_list m) + 1).
    { unfold len. rewrite (Permutation_length P). cbn [length]. lia. }
    destruct has; cbn [wpu].
    2:{ split; [exact O1|]. split; [exact Hm1|]. intros _ H. split; [eapply all_perm; [exact H| |exact P]; exact Logic.I|exact L1]. }
    apply wpu_bind.
    eapply wpu_impl; [apply (HM p1 r1 (l ++ [h]) hc st1 (m_new M)); [eapply within_here; eassumption|exact S1|exact Hnew|exact Hdst]| |dmg|dmg].
    intros [[ok2 x] st2] ((p2 & r2 & W2 & S2) & Hx & Fx). cbn [wpu].
    split; [exists p2, r2; split; [eapply within_step; eassumption|exact S2]|].
    split; [split; [apply assign_ok; exact T1|apply all_assign; [apply Hm1|exact Hx]]|].
    intros Hok H. split; [eapply all_put; [exact T1|exact H|auto|exact P]|]. unfold t_assign. cbn [t_list]. rewrite len_map. exact L1. }
  intros [[ok2 m2] st2] ((p2 & r2 & W2 & S2) & Hm2 & F2).
  assert (O2 : onward p r fl (l ++ [h]) hc st2) by (exists p2, r2; auto).
  destruct ok2; cbn [negb]; [|cbn [wpu]; split; [exact O2|split; [exact Hm2|discriminate]]].
  apply wpu_bind. eapply wpu_impl; [eapply r_end_in_any; exact S2| |dmg|dmg].
  intros [ok3 st3] E3. cbn [snd] in E3. subst st3. destruct (negb ok3); [cbn [wpu]; split; [exact O2|split; [exact Hm2|discriminate]]|].
  eapply wpu_impl; [apply (IH (i + 1) p2 r2 m2 st2); [eapply within_here; eassumption|exact S2|exact Hm2]| |dmg|dmg].
  intros [[ok4 m4] st4] ((p4 & r4 & W4 & S4) & Hm4 & F4).
  split; [exists p4, r4; split; [eapply within_step; eassumption|exact S4]|]. split; [exact Hm4|].
  intros Hok H. destruct (F2 eq_refl H) as (A & B). destruct (F4 Hok A) as (G1 & G2). split; [exact G1|]. rewrite len_cons. lia.
Qed.

Lemma table_any f : reads_any (table_mf Ko U (kzero k) M f) tab_ok (fun _ => True) tab_fits (fun n t c => (n = key_ids /\ t = kt k /\ c = CtVec) \/ C n t c).
Proof.
  intros p r l h st x Hs Hst Hx _. cbn [table_mf m_read]. unfold t_read.
  assert (N1 : name_ok key_ids) by (split; vm_compute; congruence).
  assert (N2 : name_ok key_entities) by (split; vm_compute; congruence).
  apply wpu_bind. eapply wpu_impl; [eapply r_read_any; [exact N1|exact Hs|exact Hst|apply cval_ok_nil|apply replaced_vec_nil]| |dmg|dmg].
  intros [[ok ks] st1] ((p1 & r1 & W1 & S1) & V1 & _).
  assert (Hks : len (t_keys_of Ko ks) < 2^63) by exact (keys_of_length Ko _ ks V1).
  assert (O1 : onward p r fl l h st1) by (exists p1, r1; auto).
  assert (Fail : forall st', onward p r fl l h st' -> onward p r fl l h st' /\ tab_ok x /\ (false = true -> tab_fits x)).
  { intros st' O. split; [exact O|]. split; [exact Hx|discriminate]. }
  destruct (negb ok); [cbn [wpu]; apply Fail; assumption|].
  apply wpu_bind. eapply wpu_impl; [eapply r_begin_arr_any; [exact N2|eapply within_here; eassumption|exact S1]| |dmg|dmg].
  intros [[[[c size] ok2] ix] st2] Hc. destruct c as [hc|].
  2:{ destruct Hc as (-> & (p2 & r2 & W2 & S2)). cbn [negb wpu]. apply Fail. exists p2, r2. split; [eapply within_step; eassumption|exact S2]. }
  destruct Hc as (p2 & r2 & W2 & S2). assert (W := within_step _ _ _ _ _ _ W1 W2).
  assert (O2 : onward p r fl l h st2) by (exists p2, r2; split; [exact W|eapply st_up; exact S2]).
  destruct (negb ok2); [cbn [wpu]; apply Fail; assumption|]. destruct (negb _); [cbn [wpu]; apply Fail; assumption|].
  apply wpu_bind. eapply wpu_impl; [apply (entries_any l h hc _ 0 p2 r2 (t_clear U x) st2); [eapply within_here; eassumption|exact S2|]| |dmg|dmg].
  { split; [apply clear_ok|intros i y []]. }
  intros [[ok3 m3] st3] ((p3 & r3 & W3 & S3) & Hm3 & F3). assert (W' := within_step _ _ _ _ _ _ W W3).
  destruct ok3; cbn [negb].
  2:{ cbn [wpu]. split; [exists p3, r3; split; [exact W'|eapply st_up; exact S3]|]. split; [exact Hm3|discriminate]. }
  apply wpu_bind. eapply wpu_impl; [eapply r_end_arr_any; exact S3| |dmg|dmg].
  intros [ok4 st4] (p4 & r4 & W4 & S4). cbn [wpu snd] in *. split; [exists p4, r4; split; [eapply within_step; eassumption|exact S4]|].
  split; [exact Hm3|]. intros _. destruct (F3 eq_refl) as (A & B); [intros i y []|]. split; [|exact A]. rewrite B. exact Hks.
Qed.
End Table.

Lemma idx_any t : reads_any (iv_mf t) (iv_ok t) (fun o => replaced t (CIdx (iv_values o) (iv_index o))) (fun _ => True) (s_asks (SIdx t)).
Proof.
  intros p r l h st x Hs Hst Hx Hd. cbn [iv_mf m_read]. unfold iv_read.
  assert (N1 : name_ok key_values) by (split; vm_compute; congruence).
  apply wpu_bind. eapply wpu_impl; [eapply r_read_any; [exact N1|exact Hs|exact Hst|exact Hx|exact Hd]| |dmg|dmg].
  intros [[ok v] st1] (O & V & C). cbn [wpu]. split; [exact O|]. split; [|auto]. destruct v; try discriminate C. exact V.
Qed.

Lemma varying_any : reads_any varying_mf (fun v => exists x, v = v_of x /\ well_typed x) (fun _ => True)
  (fun v => exists k c, v = v_of (Holds k c)) (s_asks SVarying).
Proof.
  intros p r l h st v Hs Hst (x & -> & Hx) _. cbn [varying_mf m_read]. unfold v_read. rewrite v_deinit_of. cbn [bind].
  assert (N1 : name_ok key_type_) by (split; vm_compute; congruence).
  assert (N2 : name_ok key_container) by (split; vm_compute; congruence).
  assert (N3 : name_ok key_data) by (split; vm_compute; congruence).
  assert (U0 : cval_ok (TUInt I16) (u16_val 0)) by reflexivity.
  assert (Ex : exists y, v_of (VaryingFacts.emptied x) = v_of y /\ well_typed y).
  { exists (VaryingFacts.emptied x). split; [reflexivity|]. destruct x; exact Logic.I. }
  apply wpu_bind. eapply wpu_impl; [eapply r_read_any; [exact N1|exact Hs|exact Hst|exact U0|exact Logic.I]| |dmg|dmg].
  intros [[ok1 ty] st1] ((p1 & r1 & W1 & S1) & _).
  destruct (negb ok1); [cbn [wpu]; split; [exists p1, r1; auto|split; [exact Ex|discriminate]]|].
  apply wpu_bind. eapply wpu_impl; [eapply r_read_any; [exact N2|eapply within_here; eassumption|exact S1|exact U0|exact Logic.I]| |dmg|dmg].
  intros [[ok2 ct] st2] ((p2 & r2 & W2 & S2) & _). assert (W := within_step _ _ _ _ _ _ W1 W2).
  assert (O2 : onward p r fl l h st2) by (exists p2, r2; auto).
  destruct (negb ok2); [cbn [wpu]; split; [exact O2|split; [exact Ex|discriminate]]|]. rewrite v_set_type_of. cbn [bind].
  unfold VaryingFacts.init_content. destruct (find_class (u16_of ty) (u16_of ct)) as [kc|] eqn:F; cbn [negb].
  2:{ cbn [wpu]. split; [exact O2|]. split; [|discriminate]. exists (Empty (u16_of ty) (u16_of ct)). split; [reflexivity|exact Logic.I]. }
  cbn [v_of fresh_of v_ty v_ct v_data]. unfold dyn_read, dyn_with. rewrite find_class_id.
  rewrite (as_class_own (Obj kc _)). cbn [o_val]. pose proof (VaryingFacts.default_typed kc) as (D1 & D2). pose proof (default_replaced kc) as D3.
  apply wpu_bind. apply wpu_bind. eapply wpu_impl; [eapply r_read_any; [exact N3|eapply within_here; eassumption|exact S2|exact D1|exact D3]| |dmg|dmg].
  intros [[ok3 y] st3] ((p3 & r3 & W3 & S3) & V & C). cbn [wpu].
  assert (Hy : exists z, Vary (dt_id (fst kc)) (ct_id (snd kc)) (Some (Obj kc y)) = v_of z /\ well_typed z).
  { exists (Holds kc y). split; [reflexivity|]. split; [exact V|congruence]. }
  assert (O3 : onward p r fl l h st3) by (exists p3, r3; split; [eapply within_step; eassumption|exact S3]).
  destruct ok3; cbn [negb wpu]; (split; [exact O3|]); (split; [exact Hy|]); [|discriminate]. intros _. exists kc, y. reflexivity.
Qed.

(** ** Entities *)
Section Fields.
Context (name : list byte) (Hname : name_ok name) {F : Type} (M : mf F) (Ok Dst Fits : F -> Prop) (C : calls) (HM : reads_any M Ok Dst Fits C).

Lemma base_any t c : reads_any (base_field name M t c) (fun x => cval_ok t (fst x) /\ cval_ctype (fst x) = c /\ Ok (snd x))
  (fun x => replaced t (fst x) /\ Dst (snd x)) (fun x => Fits (snd x)) (fun n t0 c0 => (n = name /\ t0 = t /\ c0 = c) \/ C n t0 c0).
Proof.
  intros p r l h st [v x] Hs Hst (H1 & H2 & H3) (D1 & D2). cbn [fst snd] in *. cbn [base_field m_read]. unfold bf_read. cbn [fst snd].
  assert (Harr : is_array v -> array_type c) by (rewrite <- H2; destruct v; exact (fun x => x)).
  apply wpu_bind. eapply wpu_impl; [eapply r_read_any; [exact Hname|exact Hs|exact Hst|exact H1|exact D1]| |dmg|dmg].
  intros [[ok v1] st1] ((p1 & r1 & W1 & S1) & V & Cv).
  destruct (negb ok). { cbn [wpu fst snd]. split; [exists p1, r1; auto|]. split; [split; [exact V|split; [congruence|exact H3]]|discriminate]. }
  apply wpu_bind. eapply wpu_impl; [apply (HM p1 r1 l h st1 x); [eapply within_here; eassumption|exact S1|exact H3|exact D2]| |dmg|dmg].
  intros [[ok2 y] st2] ((p2 & r2 & W2 & S2) & Hy & Fy). cbn [wpu fst snd].
  split; [exists p2, r2; split; [eapply within_step; eassumption|exact S2]|]. split; [split; [exact V|split; [congruence|exact Hy]]|exact Fy].
Qed.

Context {T : Type} (S : mf T) (OkS DstS FitsS : T -> Prop) (CS : calls) (HS : reads_any S OkS DstS FitsS CS).

Lemma class_any : reads_any (class_field name M S) (fun x => OkS (fst x) /\ Ok (snd x)) (fun x => DstS (fst x) /\ Dst (snd x))
  (fun x => FitsS (fst x) /\ Fits (snd x)) (fun n t c => CS n t c \/ C n t c).
Proof.
  intros p r l h st [a x] Hs Hst (H1 & H2) (D1 & D2). cbn [fst snd] in *. cbn [class_field m_read]. unfold cf_read. cbn [fst snd].
  apply wpu_bind. eapply wpu_impl; [eapply r_begin_any; [exact Hname|exact Hs|exact Hst]| |dmg|dmg].
  intros [[c ok] st1] Hc. destruct c as [hc|].
  2:{ destruct Hc as (X & O). rewrite (X eq_refl). cbn [negb wpu fst snd]. split; [exact O|]. split; [auto|discriminate]. }
  destruct Hc as (-> & (p1 & r1 & W1 & S1)). cbn [negb].
  apply wpu_bind.
  apply wpu_impl with (P := fun q => let '(ok2, y, st2) := q in onward p r fl l h st2 /\ OkS y /\ (ok2 = true -> FitsS y)) (T := throws CS) (U := undefs CS); [| |dmg|dmg].
  { apply wpu_bind. eapply wpu_impl; [apply (HS p1 r1 (l ++ [h]) hc st1 a); [eapply within_here; eassumption|exact S1|exact H1|exact D1]| |dmg|dmg].
    intros [[ok2 y] st2] ((p2 & r2 & W2 & S2) & Hy & Fy). assert (W := within_step _ _ _ _ _ _ W1 W2).
    destruct ok2; cbn [negb]. 2:{ cbn [wpu]. split; [exists p2, r2; split; [exact W|eapply st_up; exact S2]|]. split; [exact Hy|discriminate]. }
    apply wpu_bind. eapply wpu_impl; [eapply r_end_any; exact S2| |dmg|dmg].
    intros [ok3 st3] (p3 & r3 & W3 & S3). cbn [wpu snd] in *. split; [exists p3, r3; split; [eapply within_step; eassumption|exact S3]|].
    split; [exact Hy|intros _; exact (Fy eq_refl)]. }
  intros [[ok2 y] st2] ((p2 & r2 & W2 & S2) & Hy & Fy).
  destruct ok2; cbn [negb]. 2:{ cbn [wpu fst snd]. split; [exists p2, r2; auto|]. split; [auto|discriminate]. }
  apply wpu_bind. eapply wpu_impl; [apply (HM p2 r2 l h st2 x); [eapply within_here; eassumption|exact S2|exact H2|exact D2]| |dmg|dmg].
  intros [[ok3 z] st3] ((p3 & r3 & W3 & S3) & Hz & Fz). cbn [wpu fst snd]. split; [exists p3, r3; split; [eapply within_step; eassumption|exact S3]|].
  split; [auto|]. intros X. split; [exact (Fy eq_refl)|exact (Fz X)].
Qed.

Context (Hnew : OkS (m_new S)) (Hdst : DstS (m_new S)).
Lemma opt_any : reads_any (opt_field name M S) (fun x => match fst x with Some a => OkS a | None => True end /\ Ok (snd x)) (fun x => Dst (snd x))
  (fun x => match fst x with Some a => FitsS a | None => True end /\ Fits (snd x)) (fun n t c => CS n t c \/ C n t c).
Proof.
  intros p r l h st [a x] Hs Hst (H1 & H2) D2. cbn [fst snd] in *. cbn [opt_field m_read]. unfold of_read. cbn [fst snd].
  apply wpu_bind. eapply wpu_impl; [eapply r_begin_any; [exact Hname|exact Hs|exact Hst]| |dmg|dmg].
  intros [[c ok] st1] Hc.
  assert (O1 : onward p r fl l h st1) by (destruct c as [hc|]; destruct Hc as (_ & O); [eapply onward_up; exact O|exact O]).
  destruct (negb ok); [cbn [wpu fst snd]; split; [exact O1|split; [auto|discriminate]]|].
  apply wpu_bind.
  apply wpu_impl with (P := fun q => let '(ok2, y, st2) := q in onward p r fl l h st2 /\ match y with Some z => OkS z | None => True end /\
    (ok2 = true -> match y with Some z => FitsS z | None => True end)) (T := throws CS) (U := undefs CS); [| |dmg|dmg].
  { destruct c as [hc|]; [|cbn [wpu]; auto]. destruct Hc as (_ & (p1 & r1 & W1 & S1)).
    apply wpu_bind. eapply wpu_impl; [apply (HS p1 r1 (l ++ [h]) hc st1 (m_new S)); [eapply within_here; eassumption|exact S1|exact Hnew|exact Hdst]| |dmg|dmg].
    intros [[ok2 y] st2] ((p2 & r2 & W2 & S2) & Hy & Fy). assert (W := within_step _ _ _ _ _ _ W1 W2).
    destruct ok2; cbn [negb]. 2:{ cbn [wpu]. split; [exists p2, r2; split; [exact W|eapply st_up; exact S2]|]. split; [exact Hy|discriminate]. }
    apply wpu_bind. eapply wpu_impl; [eapply r_end_any; exact S2| |dmg|dmg].
    intros [ok3 st3] (p3 & r3 & W3 & S3). cbn [wpu snd] in *. split; [exists p3, r3; split; [eapply within_step; eassumption|exact S3]|].
    split; [exact Hy|intros _; exact (Fy eq_refl)]. }
  intros [[ok2 y] st2] ((p2 & r2 & W2 & S2) & Hy & Fy).
  destruct ok2; cbn [negb]. 2:{ cbn [wpu fst snd]. split; [exists p2, r2; auto|]. split; [auto|discriminate]. }
  apply wpu_bind. eapply wpu_impl; [apply (HM p2 r2 l h st2 x); [eapply within_here; eassumption|exact S2|exact H2|exact D2]| |dmg|dmg].
  intros [[ok3 z] st3] ((p3 & r3 & W3 & S3) & Hz & Fz). cbn [wpu fst snd]. split; [exists p3, r3; split; [eapply within_step; eassumption|exact S3]|].
  split; [auto|]. intros X. split; [exact (Fy eq_refl)|exact (Fz X)].
Qed.
End Fields.

Lemma any_both (I : forall t, umap_impl (key t)) :
  (forall s, s_named s -> reads_any (smf I s) (s_ok s) (s_dest s) (s_fits s) (s_asks s)) /\
  (forall fs, f_named fs -> reads_any (fmf I fs) (f_ok fs) (f_dest fs) (f_fits fs) (f_asks fs)).
Proof.
  apply schema_fields_ind.
  - intros k f _. exact (graph_any k f).
  - intros k f s IH H. exact (table_any k (I (kt k)) (smf I s) (s_ok s) (s_dest s) (s_fits s) (s_asks s) (IH H) (s_new_ok I s) (s_new_dest I s) f).
  - intros t _. exact (idx_any t).
  - intros _. exact varying_any.
  - intros fs IH H. exact (IH H).
  - intros _ p r l h st x _ Hst _ _. cbn. split; [apply onward_self; exact Hst|split; [exact Logic.I|auto]].
  - intros n t c r IH (H1 & H2). exact (base_any n H1 (fmf I r) (f_ok r) (f_dest r) (f_fits r) _ (IH H2) t c).
  - intros n s IHs r IHr (H1 & H2 & H3). exact (class_any n H1 (fmf I r) _ _ _ _ (IHr H3) (smf I s) _ _ _ _ (IHs H2)).
  - intros n s IHs r IHr (H1 & H2 & H3). exact (opt_any n H1 (fmf I r) _ _ _ _ (IHr H3) (smf I s) _ _ _ _ (IHs H2) (s_new_ok I s) (s_new_dest I s)).
Qed.

End Data.

(** What a class that ran out of memory or overran an object asks for. *)
Lemma asks_allocates : (forall s n t c, s_asks s n t c -> array_type c \/ t = TString -> s_allocates s) /\
  (forall fs n t c, f_asks fs n t c -> array_type c \/ t = TString -> f_allocates fs).
Proof.
  apply schema_fields_ind; try (intros; exact Logic.I).
  - intros fs IH n t c A B. exact (IH n t c A B).
  - intros n t c [].
  - intros m t' c' r IH n t c [(-> & -> & ->)|A] B; cbn; [tauto|]. right. right. exact (IH n t c A B).
  - intros m s IHs r IHr n t c [A|A] B; [left; exact (IHs n t c A B)|right; exact (IHr n t c A B)].
  - intros m s IHs r IHr n t c [A|A] B; [left; exact (IHs n t c A B)|right; exact (IHr n t c A B)].
Qed.
Lemma asks_risky : (forall s n t c, s_asks s n t c -> array_type c /\ multi_component t -> s_risky s) /\
  (forall fs n t c, f_asks fs n t c -> array_type c /\ multi_component t -> f_risky fs).
Proof.
  apply schema_fields_ind; try (intros; exact Logic.I).
  - intros k f n t c (_ & -> & _) (_ & B). exact (kt_not_multi k B).
  - intros k f s IH n t c [(_ & -> & _)|A] B; [destruct B as (_ & B); destruct (kt_not_multi k B)|exact (IH n t c A B)].
  - intros t' n t c (_ & -> & _) (_ & B). exact B.
  - intros fs IH n t c A B. exact (IH n t c A B).
  - intros n t c [].
  - intros m t' c' r IH n t c [(-> & -> & ->)|A] B; [left; exact B|right; exact (IH n t c A B)].
  - intros m s IHs r IHr n t c [A|A] B; [left; exact (IHs n t c A B)|right; exact (IHr n t c A B)].
  - intros m s IHs r IHr n t c [A|A] B; [left; exact (IHs n t c A B)|right; exact (IHr n t c A B)].
Qed.

(** The Read of a class on a stream that holds any bytes at any position. *)
Lemma t_read_any (I : forall t, umap_impl (key t)) s e D pos fl x :
  s_named s -> len D < 2^62 -> e_lim e < 2^60 -> pos <= len D -> s_ok s x -> s_dest s x ->
  match m_read (smf I s) e 0 x (r_open (RS D pos fl)) with
  | Done (ok, y, st) => s_ok s y /\ (ok = true -> s_fits s y) /\ rs_data (r_stream st) = D /\ rs_flip (r_stream st) = fl /\ pos <= rs_pos (r_stream st) <= len D
  | Throw => s_allocates s /\ refused (e_lim e) D fl pos (s_asks s)
  | Undef => s_risky s /\ overrun D fl pos (s_asks s)
  end.
Proof.
  intros Hn Hl He Hp Hx Hd.
  assert (E : RS D pos fl = rs_at (take pos D) (drop pos D) fl).
  { unfold rs_at. rewrite take_drop, len_take. rewrite N.min_l by exact Hp. reflexivity. }
  pose proof (proj1 (any_both e D fl pos He I) s Hn (take pos D) (drop pos D) [] 0 (r_open (RS D pos fl)) x) as H.
  assert (Hs : here D pos (take pos D) (drop pos D)).
  { split; [unfold small_rs, lim62; rewrite len_take, len_drop; lia|]. split; [apply take_drop|]. rewrite len_take. lia. }
  assert (Hst : st_at (take pos D) (drop pos D) fl [] 0 (r_open (RS D pos fl))).
  { split; [exact E|]. split; [exists []; reflexivity|]. cbn. split; constructor; try constructor; auto; lia. }
  specialize (H Hs Hst Hx Hd). destruct (m_read _ _ _ _ _) as [[[ok y] st]| |]; cbn [wpu] in H.
  2:{ split; [|exact H]. destruct H as (n & t & c & A & B & _). exact (proj1 asks_allocates s n t c A B). }
  2:{ split; [|exact H]. destruct H as (n & t & c & q & A & B & _). exact (proj1 asks_risky s n t c A B). }
  destruct H as ((p & r & (a & b & E1 & E2) & (S & _)) & Hy & Fy). split; [exact Hy|]. split; [exact Fy|]. rewrite S, E2. unfold rs_at. cbn [rs_data rs_flip rs_pos].
  rewrite <- app_assoc, <- E1, take_drop. split; [reflexivity|]. split; [reflexivity|].
  assert (L : len (drop pos D) = len a + len b) by (rewrite E1; apply len_app). rewrite len_drop in L. rewrite len_app, len_take. lia.
Qed.
