(** * GenFilesFacts: proofs for C46. *)
From Verif Require Import Base GenFiles GenFilesSpec.
Local Open Scope nat_scope.

Lemma is_char_eq c d : is_char c d = true <-> c = d.
Proof. unfold is_char. split; [apply Byte.byte_dec_bl|apply Byte.byte_dec_lb]. Qed.
Lemma is_char_ne c d : c <> d -> is_char c d = false.
Proof. intros H. destruct (is_char c d) eqn:E; [|reflexivity]. apply is_char_eq in E. contradiction. Qed.
Lemma text_eqb_eq a b : text_eqb a b = true <-> a = b.
Proof.
  revert b. induction a as [|x a IH]; intros [|y b]; cbn; try (split; [discriminate|discriminate]); [tauto|].
  rewrite andb_true_iff, IH. change (Byte.eqb x y) with (is_char x y). rewrite is_char_eq. split; [intros (-> & ->); reflexivity|intros H; injection H as -> ->; auto].
Qed.
Lemma text_eqb_ne a b : a <> b -> text_eqb a b = false.
Proof. intros H. destruct (text_eqb a b) eqn:E; [|reflexivity]. apply text_eqb_eq in E. contradiction. Qed.
Lemma join_text lines : join_lines lines = text lines.
Proof.
  unfold join_lines, text. assert (G : forall t, fold_left (fun t l => t ++ (l ++ [LF])) lines t = t ++ concat (map (fun l => l ++ [LF]) lines)).
  { induction lines as [|l r IH]; intros t; cbn; [rewrite app_nil_r; reflexivity|]. rewrite IH, <- !app_assoc. reflexivity. }
  apply G.
Qed.
Lemma disk_id pl t : ~ In CR t -> from_disk (to_disk pl t) = t.
Proof.
  induction t as [|c r IH]; intros H; [reflexivity|]. cbn [to_disk]. assert (H' : ~ In CR r) by (intros X; apply H; right; exact X). specialize (IH H').
  assert (Hc : is_char c CR = false) by (apply is_char_ne; intros ->; apply H; left; reflexivity).
  destruct (is_char c LF) eqn:E.
  - apply is_char_eq in E. subst c. destruct pl; cbn [app from_disk].
    + change (is_char CR CR) with true. change (is_char LF LF) with true. cbv iota. rewrite IH. reflexivity.
    + change (is_char LF CR) with false. cbv iota. rewrite IH. reflexivity.
  - cbn [app from_disk]. rewrite Hc, IH. reflexivity.
Qed.
Lemma plain_text lines : plain lines -> ~ In CR (text lines).
Proof.
  intros P H. unfold text in H. apply in_concat in H. destruct H as (x & Hx & Hc). apply in_map_iff in Hx. destruct Hx as (l & <- & Hl).
  apply in_app_iff in Hc. destruct Hc as [Hc|[Hc|[]]]; [exact (P l Hl Hc)|discriminate Hc].
Qed.

(** Appending and making read-only. *)
Lemma play_appends pl cs k b :
  (k < length cs + 1 /\ exists bs rest, concat cs = bs ++ rest /\ play pl (map Append cs ++ [ChmodRead]) k (Some (File b true true)) = (None, Some (File (b ++ bs) true true))) \/
  (length cs + 1 <= k /\ play pl (map Append cs ++ [ChmodRead]) k (Some (File b true true)) = (Some (k - (length cs + 1)), Some (File (b ++ concat cs) true false))).
Proof.
  revert k b. induction cs as [|c cs IH]; intros k b.
  - cbn. destruct k as [|k]; [left|right].
    + split; [lia|]. exists [], []. rewrite !app_nil_r. auto.
    + split; [lia|]. rewrite app_nil_r. cbn. f_equal. f_equal. try lia.
  - destruct k as [|k]; cbn [map app play].
    + left. split; [lia|]. exists [], (concat (c :: cs)). rewrite app_nil_r. auto.
    + cbn [do_effect f_bytes f_read f_write]. destruct (IH k (b ++ c)) as [(Hk & bs & rest & E & P)|(Hk & P)]; rewrite P; [left|right]; cbn [length].
      * split; [lia|]. exists (c ++ bs), rest. cbn [concat]. rewrite E, <- !app_assoc. auto.
      * split; [lia|]. cbn [concat]. rewrite <- app_assoc. reflexivity.
Qed.
Definition rewrite_effects pl chunk lines := [Create] ++ map Append (chunk (to_disk pl (text lines))) ++ [ChmodRead].
Lemma play_rewrite pl chunk lines k : flushes chunk ->
  (k < length (rewrite_effects pl chunk lines) /\ exists f', play pl (rewrite_effects pl chunk lines) k None = (None, f') /\ (f' = None \/
      exists bs rest, to_disk pl (text lines) = bs ++ rest /\ f' = Some (File bs true true))) \/
  (length (rewrite_effects pl chunk lines) <= k /\ play pl (rewrite_effects pl chunk lines) k None =
     (Some (k - length (rewrite_effects pl chunk lines)), Some (File (to_disk pl (text lines)) true false))).
Proof.
  intros F. unfold rewrite_effects. set (d := to_disk pl (text lines)). cbn [app play length]. rewrite app_length, map_length. cbn [length]. destruct k as [|k].
  - left. split; [lia|]. exists None. auto.
  - cbn [do_effect]. destruct (play_appends pl (chunk d) k []) as [(Hk & bs & rest & E & P)|(Hk & P)].
    + rewrite P. rewrite (F d) in E. left. split; [lia|]. eexists. split; [reflexivity|]. right. exists bs, rest. auto.
    + rewrite P. right. split; [lia|]. cbn [app]. rewrite (F d). repeat f_equal; try lia.
Qed.

(** One file. *)
Lemma one_file pl chunk lines f k : flushes chunk -> (forall g, f = Some g -> f_read g = true) ->
  exists es, write_lines pl chunk f lines = Some es /\
    ((length es <= k /\ exists f', play pl es k f = (Some (k - length es), f') /\ updated pl lines f f') \/
     (k < length es /\ exists f', play pl es k f = (None, f') /\ halfway pl lines f f')).
Proof.
  intros F R. unfold write_lines. rewrite join_text. fold (rewrite_effects pl chunk lines).
  destruct f as [g|].
  - rewrite (R g eq_refl). cbn [negb]. destruct (text_eqb (text lines) (from_disk (f_bytes g))) eqn:E.
    + exists []. split; [reflexivity|]. left. cbn [length]. split; [lia|]. exists (Some g). cbn [play]. split; [repeat f_equal; lia|].
      left. exists g. apply text_eqb_eq in E. split; [reflexivity|]. split; [symmetry; exact E|reflexivity].
    + assert (Ns : ~ shows g (text lines)). { unfold shows. intros X. rewrite X in E. rewrite (proj2 (text_eqb_eq _ _) eq_refl) in E. discriminate E. }
      eexists. split; [reflexivity|]. destruct k as [|[|k]].
      * right. split; [cbn; lia|]. exists (Some g). split; [reflexivity|]. left. exists g. split; [reflexivity|]. split; [exact Ns|]. destruct g as [b r w]. eauto.
      * right. split; [cbn; lia|]. eexists. split; [reflexivity|]. left. exists g. split; [reflexivity|]. split; [exact Ns|]. eauto.
      * assert (P2 : play pl ([ChmodWrite; Remove] ++ rewrite_effects pl chunk lines) (S (S k)) (Some g) = play pl (rewrite_effects pl chunk lines) k None).
        { destruct pl; reflexivity. }
        rewrite P2. rewrite app_length. cbn [length]. destruct (play_rewrite pl chunk lines k F) as [(Hk & f' & P & X)|(Hk & P)].
        -- right. split; [lia|]. exists f'. split; [exact P|]. right. exact X.
        -- left. split; [lia|]. eexists. rewrite P. split; [repeat f_equal; lia|]. right. split; [|reflexivity]. intros g' Hg. injection Hg as <-. exact Ns.
  - eexists. split; [reflexivity|]. destruct (play_rewrite pl chunk lines k F) as [(Hk & f' & P & X)|(Hk & P)].
    + right. split; [lia|]. exists f'. split; [exact P|]. right. exact X.
    + left. split; [lia|]. eexists. rewrite P. split; [reflexivity|]. right. split; [discriminate|reflexivity].
Qed.
(** A file that can not be read stops the run. *)
Lemma one_file_unreadable pl chunk lines g : f_read g = false -> write_lines pl chunk (Some g) lines = None.
Proof. intros H. unfold write_lines. rewrite H. reflexivity. Qed.

Lemma set_same p f fs : set_file p f fs p = f.
Proof. unfold set_file, path_eqb. rewrite (proj2 (text_eqb_eq p p) eq_refl). reflexivity. Qed.
Lemma set_other p q f fs : q <> p -> set_file p f fs q = fs q.
Proof. intros H. unfold set_file, path_eqb. rewrite text_eqb_ne by exact H. reflexivity. Qed.

Lemma updated_readable pl lines f f' : (forall g, f = Some g -> f_read g = true) -> updated pl lines f f' -> forall g, f' = Some g -> f_read g = true.
Proof. intros R [(g & -> & _ & ->)|(_ & ->)] g' E; [injection E as <-; apply R; reflexivity|injection E as <-; reflexivity]. Qed.

Lemma t_complete pl chunk targets k fs fs' : flushes chunk -> NoDup (map fst targets) -> generate pl chunk targets k fs = (true, fs') ->
  (forall p ls, In (p, ls) targets -> updated pl ls (fs p) (fs' p)) /\ (forall p, ~ In p (map fst targets) -> fs' p = fs p) /\
  (forall p f, In p (map fst targets) -> fs' p = Some f -> f_read f = true).
Proof.
  intros F. revert k fs. induction targets as [|[p ls] r IH]; intros k fs Nd E.
  - cbn in E. injection E as <-. split; [intros ? ? []|]. split; [reflexivity|intros ? ? []].
  - cbn [generate] in E. cbn [map fst] in *. inversion Nd as [|x l N1 N2]; subst.
    assert (R : forall g, fs p = Some g -> f_read g = true).
    { intros g Hg. destruct (f_read g) eqn:Er; [reflexivity|]. rewrite Hg, one_file_unreadable in E by exact Er. discriminate E. }
    destruct (one_file pl chunk ls (fs p) k F R) as (es & Ew & [(Hk & f' & P & U)|(Hk & f' & P & U)]); rewrite Ew, P in E; [|discriminate E].
    destruct (IH _ _ N2 E) as (A & B & C).
    assert (Ep : fs' p = f') by (rewrite (B p N1), set_same; reflexivity).
    split; [|split].
    + intros q ls' [X|X].
      * injection X as <- <-. rewrite Ep. exact U.
      * specialize (A q ls' X). rewrite set_other in A; [exact A|]. intros ->. apply N1. apply (in_map fst) in X. exact X.
    + intros q Hq. rewrite (B q) by (intros X; apply Hq; right; exact X). apply set_other. intros ->. apply Hq. left. reflexivity.
    + intros q f [<-|X] Hf; [|exact (C q f X Hf)]. rewrite Ep in Hf. exact (updated_readable _ _ _ _ R U f Hf).
Qed.
Lemma set_readable p f fs : readable fs -> (forall g, f = Some g -> f_read g = true) -> readable (set_file p f fs).
Proof. intros R Hf q g. unfold set_file. destruct (path_eqb q p); [apply Hf|apply R]. Qed.
Lemma t_finishes pl chunk targets fs : flushes chunk -> readable fs -> exists k0, forall k, k0 <= k -> exists fs', generate pl chunk targets k fs = (true, fs').
Proof.
  intros F. revert fs. induction targets as [|[p ls] r IH]; intros fs R; [exists 0; intros k _; exists fs; reflexivity|].
  destruct (one_file pl chunk ls (fs p) 0 F (R p)) as (es & Ew & _).
  assert (G : exists f', updated pl ls (fs p) f' /\ forall k, length es <= k -> play pl es k (fs p) = (Some (k - length es), f')).
  { destruct (one_file pl chunk ls (fs p) (length es) F (R p)) as (es' & Ew' & [(Hk & f' & P & U)|(Hk & _)]); rewrite Ew in Ew'; injection Ew' as <-; [|lia].
    exists f'. split; [exact U|]. intros k Hk2. destruct (one_file pl chunk ls (fs p) k F (R p)) as (es' & Ew' & [(_ & f2 & P2 & _)|(Hk3 & _)]); rewrite Ew in Ew'; injection Ew' as <-; [|lia].
    rewrite P2. f_equal.
    assert (M : forall es a b f x y, a <= b -> play pl es a f = (Some x, y) -> exists z, play pl es b f = (Some z, y)).
    { clear. induction es as [|e es IH]; intros a b f x y Hab H; cbn in *; [injection H as _ ->; eauto|]. destruct a as [|a]; [discriminate H|]. destruct b as [|b]; [lia|].
      destruct (do_effect pl e f); [|discriminate H]. eapply IH; [|exact H]. lia. }
    destruct (M _ _ _ _ _ _ Hk2 P) as (z & Z). congruence. }
  destruct G as (f' & U & P). destruct (IH (set_file p f' fs)) as (k0 & K).
  { apply set_readable; [exact R|]. exact (updated_readable _ _ _ _ (R p) U). }
  exists (length es + k0). intros k Hk. cbn [generate]. rewrite Ew, P by lia. apply K. lia.
Qed.
Lemma t_stopped pl chunk targets k fs fs' : flushes chunk -> NoDup (map fst targets) -> readable fs -> generate pl chunk targets k fs = (false, fs') ->
  exists done p ls rest, targets = done ++ (p, ls) :: rest /\
    (forall q l, In (q, l) done -> updated pl l (fs q) (fs' q)) /\ halfway pl ls (fs p) (fs' p) /\
    (forall q, q <> p -> ~ In q (map fst done) -> fs' q = fs q).
Proof.
  intros F. revert k fs. induction targets as [|[p ls] r IH]; intros k fs Nd R E; [discriminate E|].
  cbn [generate] in E. cbn [map fst] in *. inversion Nd as [|x l N1 N2]; subst.
  destruct (one_file pl chunk ls (fs p) k F (R p)) as (es & Ew & [(Hk & f' & P & U)|(Hk & f' & P & U)]); rewrite Ew, P in E.
  - destruct (IH _ _ N2 (set_readable _ _ _ R (updated_readable _ _ _ _ (R p) U)) E) as (dn & q & l & rest & -> & A & B & C).
    exists ((p, ls) :: dn), q, l, rest. split; [reflexivity|]. rewrite map_app, in_app_iff in N1. cbn [map fst In] in N1.
    assert (Npq : p <> q) by (intros ->; apply N1; auto). assert (Npd : ~ In p (map fst dn)) by (intros X; apply N1; auto).
    split; [|split].
    + intros q' l' [X|X].
      * injection X as <- <-. rewrite (C p Npq Npd), set_same. exact U.
      * specialize (A q' l' X). rewrite set_other in A; [exact A|]. intros ->. apply Npd. apply (in_map fst) in X. exact X.
    + rewrite set_other in B by congruence. exact B.
    + intros q' Hq Hd. cbn [map fst In] in Hd. rewrite C by tauto. apply set_other. intros ->. apply Hd. left. reflexivity.
  - injection E as <-. exists [], p, ls, r. split; [reflexivity|]. split; [intros ? ? []|]. split; [rewrite set_same; exact U|].
    intros q Hq _. apply set_other. exact Hq.
Qed.
Lemma updated_shows pl ls f f' : ~ In CR (text ls) -> updated pl ls f f' -> exists g, f' = Some g /\ shows g (text ls).
Proof.
  intros P [(g & _ & S & ->)|(_ & ->)]; [exists g; auto|]. eexists. split; [reflexivity|]. unfold shows. cbn [f_bytes]. apply disk_id. exact P.
Qed.
Lemma again_one pl chunk targets fs : (forall p ls, In (p, ls) targets -> exists g, fs p = Some g /\ f_read g = true /\ shows g (text ls)) ->
  exists fs', generate pl chunk targets 0 fs = (true, fs') /\ forall q, fs' q = fs q.
Proof.
  revert fs. induction targets as [|[p ls] r IH]; intros fs H; [exists fs; split; reflexivity|].
  destruct (H p ls (or_introl eq_refl)) as (g & Hg & Hr & Hs). cbn [generate]. unfold write_lines. rewrite join_text, Hg, Hr. cbn [negb].
  rewrite (proj2 (text_eqb_eq _ _)) by (symmetry; exact Hs). cbn [play].
  assert (Same : forall q, set_file p (Some g) fs q = fs q).
  { intros q. unfold set_file, path_eqb. destruct (text_eqb q p) eqn:E; [|reflexivity]. apply text_eqb_eq in E. subst q. symmetry. exact Hg. }
  destruct (IH (set_file p (Some g) fs)) as (fs' & E & Q).
  { intros q l Hq. rewrite Same. apply (H q l). right. exact Hq. }
  exists fs'. split; [exact E|]. intros q. rewrite Q. apply Same.
Qed.
Lemma t_again pl chunk chunk' targets k fs fs' : flushes chunk -> NoDup (map fst targets) -> (forall p ls, In (p, ls) targets -> plain ls) ->
  generate pl chunk targets k fs = (true, fs') -> exists fs'', generate pl chunk' targets 0 fs' = (true, fs'') /\ forall q, fs'' q = fs' q.
Proof.
  intros F Nd Pl E. destruct (t_complete _ _ _ _ _ _ F Nd E) as (A & B & C). apply again_one. intros p ls H.
  destruct (updated_shows _ _ _ _ (plain_text _ (Pl p ls H)) (A p ls H)) as (g & Hg & Hs). exists g. split; [exact Hg|]. split; [|exact Hs].
  apply (C p g); [|exact Hg]. apply (in_map fst) in H. exact H.
Qed.
(** On Windows nothing becomes unreadable. *)
Lemma play_readable es k f x f' : play Windows es k f = (x, f') -> (forall g, f = Some g -> f_read g = true) -> forall g, f' = Some g -> f_read g = true.
Proof.
  revert k f. induction es as [|e es IH]; intros k f E R; cbn in E; [injection E as _ <-; exact R|]. destruct k as [|k]; [injection E as _ <-; exact R|].
  destruct (do_effect Windows e f) as [f1|] eqn:Ed; [|injection E as _ <-; exact R].
  refine (IH _ _ E _). intros g ->. destruct e, f as [g0|]; cbn in Ed; try discriminate Ed; try (injection Ed as <-; reflexivity).
  - destruct (f_write g0); discriminate Ed.
  - destruct (f_write g0); [|discriminate Ed]. injection Ed as <-. cbn. apply R. reflexivity.
  - injection Ed as <-. cbn. apply R. reflexivity.
Qed.
Lemma generate_readable chunk targets k fs ok fs' : generate Windows chunk targets k fs = (ok, fs') -> readable fs -> readable fs'.
Proof.
  revert k fs. induction targets as [|[p ls] r IH]; intros k fs E R; cbn [generate] in E; [injection E as _ <-; exact R|].
  destruct (write_lines Windows chunk (fs p) ls) as [es|]; [|injection E as _ <-; exact R].
  destruct (play Windows es k (fs p)) as [x f'] eqn:P. pose proof (set_readable p f' fs R (play_readable _ _ _ _ _ P (R p))) as R'.
  destruct x as [k'|]; [exact (IH _ _ E R')|]. injection E as _ <-. exact R'.
Qed.
Lemma t_recovers chunk targets fs fs1 : readable fs -> runs Windows fs fs1 -> flushes chunk -> NoDup (map fst targets) -> (forall p ls, In (p, ls) targets -> plain ls) ->
  exists k0, forall k, k0 <= k -> exists fs2, generate Windows chunk targets k fs1 = (true, fs2) /\
    forall p ls, In (p, ls) targets -> exists f, fs2 p = Some f /\ shows f (text ls).
Proof.
  intros R H F Nd Pl. assert (R1 : readable fs1). { induction H as [|fs1 chunk' targets' k ok fs2 H IH Fc E]; [exact R|]. exact (generate_readable _ _ _ _ _ _ E IH). }
  destruct (t_finishes Windows chunk targets fs1 F R1) as (k0 & K). exists k0. intros k Hk. destruct (K k Hk) as (fs2 & E). exists fs2. split; [exact E|].
  destruct (t_complete _ _ _ _ _ _ F Nd E) as (A & _). intros p ls Hp. exact (updated_shows _ _ _ _ (plain_text _ (Pl p ls Hp)) (A p ls Hp)).
Qed.

(** ** Inlined files *)
Lemma strip_front_split l : exists s, l = s ++ strip_front l /\ blank s /\ (strip_front l = [] \/ exists c r, strip_front l = c :: r /\ is_space c = false).
Proof.
  induction l as [|c l (s & E & B & H)]; [exists []; split; [reflexivity|]; split; [intros ? []|left; reflexivity]|]. cbn. destruct (is_space c) eqn:Ec.
  - exists (c :: s). split; [cbn; f_equal; exact E|]. split; [|exact H]. intros d [<-|Hd]; [exact Ec|exact (B d Hd)].
  - exists []. split; [reflexivity|]. split; [intros ? []|]. right. eauto.
Qed.
Lemma rstrip_split l : exists s, l = rstrip l ++ s /\ blank s /\ stripped (rstrip l).
Proof.
  destruct (strip_front_split (rev l)) as (s & E & B & H). exists (rev s). unfold rstrip. split; [|split].
  - rewrite <- rev_app_distr, <- E, rev_involutive. reflexivity.
  - intros c Hc. apply B. apply in_rev. exact Hc.
  - destruct H as [->|(c & r & -> & Hc)]; [left; reflexivity|]. right. exists (rev r), c. split; [reflexivity|exact Hc].
Qed.
Lemma rstrip_blank a s : stripped a -> blank s -> rstrip (a ++ s) = a.
Proof.
  intros Ha Hs. unfold rstrip. rewrite rev_app_distr.
  assert (G : forall x y, (forall c, In c x -> is_space c = true) -> strip_front (x ++ y) = strip_front y).
  { induction x as [|c x IH]; intros y H; [reflexivity|]. cbn. rewrite (H c (or_introl eq_refl)). apply IH. intros d Hd. apply H. right. exact Hd. }
  rewrite G by (intros c Hc; apply Hs, in_rev; exact Hc).
  destruct Ha as [->|(b & c & -> & Hc)]; [reflexivity|]. rewrite rev_app_distr. cbn. rewrite Hc. cbn. rewrite rev_involutive. reflexivity.
Qed.
Lemma readlines_lines t : forall cur, ~ In LF cur -> lines_of (rev cur ++ t) (readlines cur t).
Proof.
  induction t as [|c t IH]; intros cur Hc.
  - cbn. destruct cur as [|x cur]; [split; [reflexivity|]; intros [|? ?] ? ? X; discriminate X|].
    split; [cbn; reflexivity|]. intros a l b X. destruct a as [|? [|? ?]]; [|discriminate X|discriminate X]. injection X as X1 X2.
    assert (Hl : ~ In LF l). { rewrite <- X1. intros Y. change (rev cur ++ [x]) with (rev (x :: cur)) in Y. apply in_rev in Y. exact (Hc Y). }
    split; [rewrite <- X1; destruct (rev cur); discriminate|]. split; [|rewrite <- X2; congruence].
    intros d e ->. exfalso. apply Hl, in_app_iff. right. left. reflexivity.
  - cbn [readlines]. destruct (is_char c LF) eqn:E.
    + apply is_char_eq in E. subst c. destruct (IH [] (fun x => x)) as (A & B). split; [cbn [concat]; rewrite A; cbn [rev app]; rewrite <- app_assoc; reflexivity|].
      intros a l b X. destruct a as [|y a].
      * injection X as <- <-. cbn [rev]. split; [destruct (rev cur); discriminate|]. split; [|intros _; eauto].
        intros d e Y. destruct (exists_last (l := LF :: e) ltac:(discriminate)) as (z & w & Z). rewrite Z, app_assoc in Y. apply app_inj_tail in Y. destruct Y as (Y & <-).
        destruct z as [|z0 z]; [injection Z as Z; exact Z|]. injection Z as Z1 Z2. exfalso. apply Hc, in_rev. rewrite Y, <- Z1, in_app_iff. right. left. reflexivity.
      * injection X as _ X. exact (B a l b X).
    + replace (rev cur ++ c :: t) with (rev (c :: cur) ++ t) by (cbn; rewrite <- app_assoc; reflexivity). apply IH. intros [->|H]; [|exact (Hc H)].
      rewrite (proj2 (is_char_eq LF LF) eq_refl) in E. discriminate E.
Qed.
Lemma from_disk_plain_n n : forall d, length d <= n -> ~ In CR (from_disk d).
Proof.
  induction n as [|n IH]; intros [|c d] Hl; cbn in Hl; try lia; try (intros []).
  cbn [from_disk]. destruct (is_char c CR) eqn:E.
  - intros [X|X]; [discriminate X|]. destruct d as [|c' d']; [exact X|]. cbn in Hl. destruct (is_char c' LF); [revert X; apply IH; lia|revert X; apply IH; cbn; lia].
  - intros [X|X]; [subst c; discriminate E|revert X; apply IH; lia].
Qed.
Lemma t_inline f : exists ls, lines_of (from_disk (f_bytes f)) ls /\
  Forall2 (fun l m => exists s, l = m ++ s /\ blank s /\ stripped m /\ ~ In LF m /\ ~ In CR m) ls (inline_file f).
Proof.
  exists (readlines [] (from_disk (f_bytes f))). pose proof (readlines_lines (from_disk (f_bytes f)) [] (fun x => x)) as (A & B). cbn [rev app] in *. split; [split; assumption|].
  unfold inline_file. assert (Hcr : forall l, In l (readlines [] (from_disk (f_bytes f))) -> ~ In CR l).
  { intros l Hl X. apply (from_disk_plain_n _ (f_bytes f) (le_n _)). rewrite <- A. apply in_concat. eauto. }
  assert (Hlf : forall l, In l (readlines [] (from_disk (f_bytes f))) -> forall c d, l = c ++ LF :: d -> d = []).
  { intros l Hl. apply in_split in Hl. destruct Hl as (a & b & E). exact (proj1 (proj2 (B a l b E))). }
  clear A B. induction (readlines [] (from_disk (f_bytes f))) as [|l r IH]; [constructor|]. cbn [map]. constructor.
  - destruct (rstrip_split l) as (s & E & Bs & St). exists s. split; [exact E|]. split; [exact Bs|]. split; [exact St|].
    split; [|intros X; apply (Hcr l (or_introl eq_refl)); rewrite E, in_app_iff; auto].
    intros X. apply in_split in X. destruct X as (a & b & X). assert (Y : b ++ s = []).
    { apply (Hlf l (or_introl eq_refl) a). rewrite E at 1. rewrite X, <- app_assoc. reflexivity. }
    apply app_eq_nil in Y. destruct Y as (-> & ->). rewrite X in St. destruct St as [St|(a' & c & St & Hc)]; [destruct a; discriminate St|].
    apply app_inj_tail in St. destruct St as (_ & <-). discriminate Hc.
  - apply IH; intros m Hm; [apply Hcr|apply Hlf]; right; exact Hm.
Qed.
Lemma Forall2_in_r {A B} (P : A -> B -> Prop) l m y : Forall2 P l m -> In y m -> exists x, In x l /\ P x y.
Proof. induction 1 as [|a b l m H _ IH]; [intros []|]; intros [<-|X]; [exists a; split; [left; reflexivity|exact H]|]. destruct (IH X) as (x & X1 & X2). exists x. split; [right; exact X1|exact X2]. Qed.
Lemma readlines_text ls : (forall l, In l ls -> ~ In LF l) -> readlines [] (text ls) = map (fun l => l ++ [LF]) ls.
Proof.
  unfold text. induction ls as [|l r IH]; intros H; [reflexivity|]. cbn [map concat].
  assert (G : forall m cur rest, ~ In LF m -> readlines cur ((m ++ [LF]) ++ rest) = (rev cur ++ m ++ [LF]) :: readlines [] rest).
  { induction m as [|c m IHm]; intros cur rest Hm; cbn [app readlines].
    - change (is_char LF LF) with true. cbv iota. reflexivity.
    - rewrite is_char_ne by (intros ->; apply Hm; left; reflexivity). rewrite IHm by (intros X; apply Hm; right; exact X). cbn [rev]. rewrite <- app_assoc. reflexivity. }
  rewrite G by (apply H; left; reflexivity). cbn [rev app]. rewrite IH by (intros m Hm; apply H; right; exact Hm). reflexivity.
Qed.
Lemma t_inline_again pl f r w : inline_file (File (to_disk pl (text (inline_file f))) r w) = inline_file f.
Proof.
  destruct (t_inline f) as (ls & _ & H).
  assert (Hm : forall m, In m (inline_file f) -> stripped m /\ ~ In LF m /\ ~ In CR m).
  { intros m Hm. destruct (Forall2_in_r _ _ _ _ H Hm) as (l & _ & s & _ & _ & X). exact X. }
  unfold inline_file at 1. cbn [f_bytes]. rewrite disk_id by (apply plain_text; intros l Hl; apply (Hm l Hl)).
  rewrite readlines_text by (intros l Hl; apply (Hm l Hl)). rewrite map_map. clear H ls. induction (inline_file f) as [|m ms IH]; [reflexivity|]. cbn [map]. f_equal.
  - apply rstrip_blank; [apply (Hm m (or_introl eq_refl))|]. intros c [<-|[]]. reflexivity.
  - apply IH. intros x Hx. apply Hm. right. exact Hx.
Qed.
Lemma t_inline_plain f : plain (inline_file f).
Proof. intros m Hm. destruct (t_inline f) as (ls & _ & H). destruct (Forall2_in_r _ _ _ _ H Hm) as (l & _ & s & _ & _ & _ & _ & X). exact X. Qed.
