(** * Objects stored in entity files and loaded again. Proofs. *)
From Verif Require Import Base Bytes BytesFacts Values Streams Types Format EntityWriter EntityReader Items ItemSpec Sections Documents DocSpec
  Keys Containers Classes Table DynTypes Varying EntityGen EntitySpec EntityFacts EntityCodec CanonFacts
  Hex Sha256 Sha256Spec ShaSpec ShaFacts Loader LoaderSpec LoaderFacts.
Local Open Scope N_scope.

Lemma len_sha d : len (sha256 d) = 32.
Proof. unfold len. rewrite sha256_length. reflexivity. Qed.
Lemma intact_unique f d d' : intact f d -> intact f d' -> d = d'.
Proof.
  unfold intact. intros -> E. pose proof (f_equal len E) as L. rewrite !len_app, !len_sha in L.
  apply (f_equal (take (len d))) in E. rewrite take_app_exact in E by reflexivity. replace (len d) with (len d') in E by lia.
  rewrite take_app_exact in E by reflexivity. exact E.
Qed.
Lemma intact_tail f d : intact f d -> drop (len f - 32) f = sha256 d.
Proof. unfold intact. intros ->. rewrite len_app, len_sha. replace (len d + 32 - 32) with (len d) by lia. apply drop_app_exact. reflexivity. Qed.

Section S.
Context (U : forall t, umap_impl (key t)).
Lemma t_store s x init lim : s_sound s -> s_ok s x -> s_fits s x -> room init lim (len (nodes_bytes false (s_doc s x))) ->
  exists s0 st, fresh init lim false = Done s0 /\ m_write (smf U s) 0 x (w_open s0) = Done (true, st) /\
    forall L o p f, computes_sha256 L -> intact f (ws_data (w_stream st)) -> serves o f -> os_open o p = true ->
      len f <= os_mem o -> len f < 2 ^ 61 ->
      exists bound, forall reads rounds, (bound <= reads)%nat -> (bound <= rounds)%nat ->
      exists e tr, load_file L reads rounds o p = (e, tr) /\
        (a_read_failed tr /\ e = Ended ECantRead None \/
         ~ a_read_failed tr /\ exists rs, e = Ended Loader.SOk (Some rs) /\
           forall en old, s_ok s old -> s_dest s old -> read_room en (len f) (len f) ->
           exists y st', m_read (smf U s) en 0 old (r_open rs) = Done (true, y, st') /\ s_ident s y x /\ rs_pos (r_stream st') = rs_size rs).
Proof.
  intros Hs Hx Hf Hr. destruct (t_s_roundtrip U s x init lim false Hs Hx Hf Hr) as (s0 & st & E0 & E1 & Ed & _).
  exists s0, st. split; [exact E0|]. split; [exact E1|]. intros L o p f HL Hi Hsv Ho Hm Hl. rewrite Ed in Hi.
  destruct (t_verdict L o p f HL Hsv Ho Hm Hl) as (bound & V). exists bound. intros reads rounds B1 B2.
  destruct (V reads rounds B1 B2) as (e & tr & E & [[X1 X2]|[(X1 & data & X2 & X3)|(X1 & X2 & X3)]]).
  - exists e, tr. split; [exact E|]. left. auto.
  - exists e, tr. split; [exact E|]. right. split; [exact X1|]. rewrite (intact_unique _ _ _ X2 Hi) in X3. exists (RS (nodes_bytes false (s_doc s x)) 0 false). split; [exact X3|].
    intros en old Ho' Hd (R1 & R2). assert (LL : len (nodes_bytes false (s_doc s x)) <= len f) by (unfold intact in Hi; rewrite Hi, len_app; lia).
    destruct (read_back U s x en old false [] Hs Hx Hf Ho' Hd) as (y & st' & R & _ & Q & P).
    { rewrite len_nil. split; lia. }
    rewrite app_nil_r in R, P. exists y, st'. split; [exact R|]. split; [exact Q|]. rewrite P. reflexivity.
  - destruct X2. eexists. exact Hi.
Qed.

Lemma t_authentic s x init lim s0 st : s_sound s -> s_ok s x -> s_fits s x -> room init lim (len (nodes_bytes false (s_doc s x))) ->
  fresh init lim false = Done s0 -> m_write (smf U s) 0 x (w_open s0) = Done (true, st) ->
  forall L o p, computes_sha256 L -> within_requests o -> (forall n, os_size o = Some n -> n < 2 ^ 61) ->
  forall reads rounds rs tr, load_file L reads rounds o p = (Ended Loader.SOk (Some rs), tr) ->
  drop (len (delivered tr) - 32) (delivered tr) = sha256 (ws_data (w_stream st)) ->
  (exists other, other <> ws_data (w_stream st) /\ sha256 other = sha256 (ws_data (w_stream st))) \/
  forall en old, s_ok s old -> s_dest s old -> read_room en (len (delivered tr)) (len (delivered tr)) ->
    exists y st', m_read (smf U s) en 0 old (r_open rs) = Done (true, y, st') /\ s_ident s y x.
Proof.
  intros Hs Hx Hf Hr E0 E1 L o p HL HW HB reads rounds rs tr E D.
  pose proof (written U s x init lim false s0 st Hs Hx Hf Hr E0 E1) as W. rewrite W in *.
  destruct (t_accepts L o p HL HW HB reads rounds _ tr E) as (data & Hi & R & _). injection R as ->.
  rewrite (intact_tail _ _ Hi) in D. destruct (list_eq_dec Byte.byte_eq_dec data (nodes_bytes false (s_doc s x))) as [->|N].
  - right. intros en old Ho Hd (R1 & R2).
    assert (LL : len (nodes_bytes false (s_doc s x)) <= len (delivered tr)) by (unfold intact in Hi; rewrite Hi, len_app; lia).
    destruct (read_back U s x en old false [] Hs Hx Hf Ho Hd) as (y & st' & R & _ & Q & P).
    { rewrite len_nil. split; lia. }
    rewrite app_nil_r in R. exists y, st'. auto.
  - left. exists data. auto.
Qed.
End S.
