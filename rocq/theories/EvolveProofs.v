(** * Reading objects of another definition. Proofs. *)
From Verif Require Import Base Bytes BytesFacts Values Streams FileSpec ReadSpec StreamFacts StreamProps Types Format
  Accept EntityWriter EntityReader EntityWriterFacts PackFacts ArrayWriterFacts EntityReaderFacts EntitySafety ArraySafety
  ReadTotal Items ItemSpec EntityProps Sections Documents DocSpec SectionFacts SectionReadFacts SectionTheorems CodecFacts
  Keys KeySpec KeyFacts Containers ValueEqSpec Graph GraphSpec Classes Table TableSpec TableFacts TableCodec
  IndexedVector IndexedVectorSpec IndexedVectorFacts DynTypes Varying VaryingSpec VaryingCodec EntityGen EntitySpec EntityFacts EntityCodec
  TruncSpec Truncation EntityTrunc EvolveSpec EvolveItem EvolveFacts EvolveTable.
From Verif Require GraphSets.
Local Open Scope N_scope.

Scheme s_change_mut := Induction for s_change Sort Prop with f_change_mut := Induction for f_change Sort Prop.
Combined Scheme change_ind from s_change_mut, f_change_mut.

Section I.
Context (I : forall t, umap_impl (key t)).
Notation smf := (smf I).
Notation fmf := (fmf I).

Lemma base_read n t c r b d e h st : m_read (fmf (FBase n t c r)) e h (b, d) st =
  do q <- r_read e h t n b st; let '(ok, v, st1) := q in
  if (ok : bool) then (do q <- m_read (fmf r) e h d st1; let '(ok2, f, st2) := q in Done (ok2, (v, f), st2)) else Done (false, (v, d), st1).
Proof.
  change (m_read (fmf (FBase n t c r)) e h (b, d) st) with (bf_read n (fmf r) t e h (b, d) st). unfold bf_read. cbn [fst snd].
  destruct (r_read e h t n b st) as [[[[] v] st1]| |]; reflexivity.
Qed.
Lemma class_read n s r b d e h st : m_read (fmf (FClass n s r)) e h (b, d) st =
  do q <- sec_read n false b b (fun e h st => m_read (smf s) e h b st) e h st; let '(ok, v, st1) := q in
  if (ok : bool) then (do q <- m_read (fmf r) e h d st1; let '(ok2, f, st2) := q in Done (ok2, (v, f), st2)) else Done (false, (v, d), st1).
Proof.
  change (m_read (fmf (FClass n s r)) e h (b, d) st) with (cf_read n (fmf r) (smf s) e h (b, d) st). unfold cf_read, sec_read. cbn [fst snd].
  destruct (r_begin e h n false st) as [[[c ok] st1]| |]; cbn [bind]; try reflexivity. destruct ok; cbn [negb bind]; try reflexivity.
  destruct c as [hc|]; cbn [bind negb]; try reflexivity.
  destruct (m_read (smf s) e hc b st1) as [[[ok v] st2]| |]; cbn [bind]; try reflexivity. destruct ok; cbn [negb bind]; try reflexivity.
  destruct (r_end h (Some hc) st2) as [[ok st3]| |]; reflexivity.
Qed.
Lemma opt_read n s r b d e h st : m_read (fmf (FOpt n s r)) e h (b, d) st =
  do q <- sec_read n true b None (fun e hc st1 => do q <- m_read (smf s) e hc (m_new (smf s)) st1; let '(ok, v, st2) := q in Done (ok, Some v, st2)) e h st; let '(ok, v, st1) := q in
  if (ok : bool) then (do q <- m_read (fmf r) e h d st1; let '(ok2, f, st2) := q in Done (ok2, (v, f), st2)) else Done (false, (v, d), st1).
Proof.
  change (m_read (fmf (FOpt n s r)) e h (b, d) st) with (of_read n (fmf r) (smf s) e h (b, d) st). unfold of_read, sec_read. cbn [fst snd].
  destruct (r_begin e h n true st) as [[[c ok] st1]| |]; cbn [bind]; try reflexivity. destruct ok; cbn [negb bind]; try reflexivity.
  destruct c as [hc|]; cbn [bind negb]; try reflexivity.
  destruct (m_read (smf s) e hc (m_new (smf s)) st1) as [[[ok v] st2]| |]; cbn [bind]; try reflexivity. destruct ok; cbn [negb bind]; try reflexivity.
  destruct (r_end h (Some hc) st2) as [[ok st3]| |]; reflexivity.
Qed.

Lemma decides_clash fs fs' d x : clash fs fs' -> f_sound fs -> f_sound fs' -> f_keyed fs' -> f_ok fs' d -> f_dest fs' d -> f_ok fs x -> f_fits fs x ->
  fails (fun e h st => m_read (fmf fs') e h d st) (fun fl => nodes_bytes fl (f_doc fs x)).
Proof.
  intros Hc S S' Kd Od Dd Ox Fx.
  destruct fs as [|n t c r|n s r|n s r], fs' as [|n' t' c' r'|n' s' r'|n' s' r']; try contradiction; destruct d as [b d], x as [a x];
    cbn [f_sound f_keyed f_ok f_dest fst snd] in *.
  - refine (decides_ext _ _ _ _ _ (fails_first _ (fun e h st => m_read (fmf r') e h d st) d _ (fun fl => nodes_bytes fl (f_doc r x)) (fails_value_name t n a t' n' b _ _ _ _ _ _)) _ _);
      [split; [apply Ox|apply S]|tauto|tauto|tauto|apply Hc|destruct Ox as (_ & -> & _); apply Hc|intros; apply base_read|reflexivity].
  - refine (decides_ext _ _ _ _ _ (fails_first _ (fun e h st => m_read (fmf r') e h d st) d _ (fun fl => nodes_bytes fl (f_doc r x)) (fails_section_value n' false b b _ t n a _ _)) _ _);
      [tauto|tauto|intros; apply class_read|reflexivity].
  - refine (decides_ext _ _ _ _ _ (fails_first _ (fun e h st => m_read (fmf r') e h d st) d _ (fun fl => nodes_bytes fl (f_doc r x)) (fails_section_value n' true b None _ t n a _ _)) _ _);
      [tauto|tauto|intros; apply opt_read|reflexivity].
  - refine (decides_ext _ _ _ _ _ (fails_first _ (fun e h st => m_read (fmf r') e h d st) d _ (fun fl => nodes_bytes fl (f_doc r x)) (fails_value_section t' n' b n (fun fl => nodes_bytes fl (s_doc s a)) _ _)) _ _);
      [tauto|tauto|intros; apply base_read|reflexivity].
  - refine (decides_ext _ _ _ _ _ (fails_first _ (fun e h st => m_read (fmf r') e h d st) d _ (fun fl => nodes_bytes fl (f_doc r x)) (fails_section_name n' false b b _ n (fun fl => nodes_bytes fl (s_doc s a)) _ _ _ _)) _ _);
      [tauto|tauto|tauto|congruence|intros; apply class_read|reflexivity].
  - refine (decides_ext _ _ _ _ _ (fails_first _ (fun e h st => m_read (fmf r') e h d st) d _ (fun fl => nodes_bytes fl (f_doc r x)) (fails_section_name n' true b None _ n (fun fl => nodes_bytes fl (s_doc s a)) _ _ _ _)) _ _);
      [tauto|tauto|tauto|congruence|intros; apply opt_read|reflexivity].
  - refine (decides_ext _ _ _ _ _ (fails_first _ (fun e h st => m_read (fmf r') e h d st) d _ (fun fl => nodes_bytes fl (f_doc r x)) (fails_value_section t' n' b n (fun fl => nodes_bytes fl (match a with Some a => s_doc s a | None => Nil end)) _ _)) _ _);
      [tauto|tauto|intros; apply base_read|reflexivity].
  - refine (decides_ext _ _ _ _ _ (fails_first _ (fun e h st => m_read (fmf r') e h d st) d _ (fun fl => nodes_bytes fl (f_doc r x)) (fails_section_name n' false b b _ n (fun fl => nodes_bytes fl (match a with Some a => s_doc s a | None => Nil end)) _ _ _ _)) _ _);
      [tauto|tauto|tauto|congruence|intros; apply class_read|reflexivity].
  - refine (decides_ext _ _ _ _ _ (fails_first _ (fun e h st => m_read (fmf r') e h d st) d _ (fun fl => nodes_bytes fl (f_doc r x)) (fails_section_name n' true b None _ n (fun fl => nodes_bytes fl (match a with Some a => s_doc s a | None => Nil end)) _ _ _ _)) _ _);
      [tauto|tauto|tauto|congruence|intros; apply opt_read|reflexivity].
Qed.

Lemma decides_both :
  (forall s s' (c : s_change s s') d x, s_sound s -> s_sound s' -> s_keyed s' -> s_ok s' d -> s_dest s' d -> s_ok s x -> s_fits s x ->
    decides (fun e h st => m_read (smf s') e h d st) (fun fl => nodes_bytes fl (s_doc s x)) (fun y => s_ok s' y /\ s_as c x y)) /\
  (forall fs fs' (c : f_change fs fs') d x, f_sound fs -> f_sound fs' -> f_keyed fs' -> f_ok fs' d -> f_dest fs' d -> f_ok fs x -> f_fits fs x ->
    decides (fun e h st => m_read (fmf fs') e h d st) (fun fl => nodes_bytes fl (f_doc fs x)) (fun y => f_ok fs' y /\ f_as c x y)).
Proof.
  apply change_ind.
  - intros s d x S _ _ Od Dd Ox Fx. apply decides_reads. exact (proj1 (reads_both I) s d x S Od Dd Ox Fx).
  - intros k f f' d x _ _ _ _ _ Ox Fx. apply decides_reads, (reads_P _ _ x); [apply (GraphSets.g_reads (kops k) (klaws k) x d Ox Fx)|].
    split; [exact Ox|]. split; tauto.
  - intros k f f' s s' c IH d x [Hn S] [Hn' S'] Kd [Od Ed] _ [Ox Ex] [Hl Fx].
    eapply decides_iff; [apply (t_decides (kops k) (klaws k) (I (kt k)) (smf s') (s_doc s) (fun a y => s_ok s' y /\ s_as c a y) x d Ox Hl)|].
    + intros i a Ha. split; [apply doc_nonempty_s; eauto|]. apply IH; eauto; [apply s_new_ok|apply s_new_dest].
    + intros m. cbn [s_ok s_as].
      split.
      * intros [Tm Am]. apply (table_as_ok (kops k) (klaws k) (s_ok s') (s_as c) x m Tm) in Am. split; [split; [exact Tm|apply Am]|apply Am].
      * intros [[Tm Om] Am]. split; [exact Tm|]. apply (table_as_ok (kops k) (klaws k) (s_ok s') (s_as c) x m Tm). split; [exact Om|exact Am].
  - intros fs fs' c IH. exact IH.
  - intros d x _ _ _ _ _ _ _. apply decides_reads, (reads_P _ _ tt); [|split; exact Logic.I].
    intros e h above f st pre post fl R Es _ _. exists st. split; [reflexivity|]. rewrite app_nil_r. split; [exact Es|]. split; [reflexivity|lia].
  - intros n t c t' c' r r' ch IH [b d] [a x] S S' Kd Od Dd Ox Fx. cbn [f_sound f_keyed f_ok f_dest f_fits fst snd] in *.
    eapply decides_ext; [|intros; apply base_read|reflexivity].
    apply (decides_pair _ _ d _ _ _ _ _ (decides_value t n a t' b (conj (proj1 Ox) (proj1 S)) (proj1 Kd) (proj1 Od) (proj1 Dd)) (IH d x ltac:(tauto) ltac:(tauto) ltac:(tauto) ltac:(tauto) ltac:(tauto) ltac:(tauto) Fx)).
    intros w y. cbn [f_ok f_as fst snd]. destruct Od as (_ & Cb & _). rewrite Cb. unfold value_as. tauto.
  - intros n s s' r r' cs IHs cf IH [b d] [a x] (Hn & Hne & S & Sr) (Hn' & Hne' & S' & Sr') (Kn & Ks & Kr) (Ob & Od) [Db Dd] (Oa & Ox) [Fa Fx]. cbn [fst snd] in *.
    eapply decides_ext; [|intros; apply class_read|reflexivity].
    apply (decides_pair _ _ d _ _ _ _ _ (decides_section n false b b _ _ _ Hn (fun fl => nodes_bytes_nonempty fl _ (doc_nonempty_s s a Hne Fa)) (IHs b a S S' Ks Ob Db Oa Fa))
      (IH d x Sr Sr' Kr Od Dd Ox Fx)).
    intros w y. cbn [f_ok f_as fst snd]. tauto.
  - intros n s s' r r' cs IHs cf IH [b d] [a x] (Hn & Hne & S & Sr) (Hn' & Hne' & S' & Sr') (Kn & Ks & Kr) (Ob & Od) Dd (Oa & Ox) [Fa Fx]. cbn [fst snd f_dest] in *.
    eapply decides_ext; [|intros; apply opt_read|reflexivity].
    refine (decides_pair _ _ d _ _ (fun v => match v with Some y => s_ok s' y /\ s_as cs a y | None => False end) _ _ (decides_section n true b None _ _ _ Hn (fun fl => nodes_bytes_nonempty fl _ (doc_nonempty_s s a Hne Fa)) 
      (decides_map _ (fun _ v => Some v) _ _ _ (IHs (m_new (smf s')) a S S' Ks (s_new_ok I s') (s_new_dest I s') Oa Fa) _ _))
      (IH d x Sr Sr' Kr Od Dd Ox Fx) _).
    + intros y Y. exact Y.
    + intros [y|] Y; [eauto|contradiction].
    + intros [w|] y; cbn [f_ok f_as fst snd]; tauto.
  - intros n s s' r r' cs IHs cf IH [b d] [a x] (Hn & Hne & S & Sr) (Hn' & Hne' & S' & Sr') (Kn & Ks & Kr) (Ob & Od) [Db Dd] (Oa & Ox) [Fa Fx]. cbn [fst snd] in *.
    eapply decides_ext; [|intros; apply class_read|reflexivity]. destruct a as [a|].
    + apply (decides_pair _ _ d _ _ _ _ _ (decides_section n false b b _ _ _ Hn (fun fl => nodes_bytes_nonempty fl _ (doc_nonempty_s s a Hne Fa)) (IHs b a S S' Ks Ob Db Oa Fa))
        (IH d x Sr Sr' Kr Od Dd Ox Fx)).
      intros w y. cbn [f_ok f_as fst snd]. tauto.
    + apply fails_decides; [|intros [w y] (_ & Y & _); exact Y].
      apply (fails_first _ _ d _ _ (fails_section_absent n b b _ Hn)).
  - intros n s s' r r' cs IHs cf IH [b d] [a x] (Hn & Hne & S & Sr) (Hn' & Hne' & S' & Sr') (Kn & Ks & Kr) (Ob & Od) Dd (Oa & Ox) [Fa Fx]. cbn [fst snd f_dest] in *.
    eapply decides_ext; [|intros; apply opt_read|reflexivity].
    refine (decides_pair _ _ d _ _ (fun v => match a, v with Some a, Some y => s_ok s' y /\ s_as cs a y | None, None => True | _, _ => False end) _ _ _ (IH d x Sr Sr' Kr Od Dd Ox Fx) _).
    + destruct a as [a|].
      * apply (decides_section n true b None); [exact Hn|exact (fun fl => nodes_bytes_nonempty fl _ (doc_nonempty_s s a Hne Fa))|].
        refine (decides_map _ (fun _ v => Some v) _ _ _ (IHs (m_new (smf s')) a S S' Ks (s_new_ok I s') (s_new_dest I s') Oa Fa) _ _).
        -- intros y Y. exact Y.
        -- intros [y|] Y; [eauto|contradiction].
      * apply decides_reads, (reads_P _ _ None); [|exact Logic.I]. exact (reads_section_empty n b None _ Hn).
    + intros w y; cbn [f_ok f_as fst snd]. destruct a, w; tauto.
  - intros fs fs' c d x S S' Kd Od Dd Ox Fx. apply fails_decides; [|intros y [_ Y]; exact Y]. apply decides_clash; assumption.
Qed.
End I.
