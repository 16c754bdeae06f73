(** * The fuzz test of EntityReader. Proofs. *)
From Coq Require Import Strings.String.
From Verif Require Import Base Bytes BytesFacts Values Streams FileSpec Types Format Accept EntityWriter EntityReader Items ItemSpec EntityProps EntityTheorems Damage DamageFacts TestFuzz.
Local Open Scope N_scope.

Definition gentle (i : item) : Prop := 0 < len (i_key i) /\ len (i_key i) <= 40 /\ cval_ok (i_type i) (i_val i) /\ ~ (is_array (i_val i) /\ multi_component (i_type i)).
Lemma t_attempts e data fl l : forall pos, pos <= len data -> len data < 2^62 -> e_lim e < 2^60 -> Forall gentle l ->
  match attempt_all e l (RS data pos fl) with
  | Done (vs, s') => map (fun x => cval_ctype (snd x)) vs = map (fun i => cval_ctype (i_val i)) l /\ exists p, pos <= p <= len data /\ s' = RS data p fl
  | Throw => e_lim e < 4 * len data \/
      exists i p, In i l /\ (is_array (i_val i) \/ i_type i = TString) /\ pos <= p <= len data /\ size_damage fl p (i_type i) (i_val i) (i_key i) (drop p data)
  | Undef => False
  end.
Proof.
  induction l as [|i l IH]; intros pos Hp Hd He HF.
  - cbn. split; [reflexivity|]. exists pos. split; [lia|reflexivity].
  - inversion HF as [|? ? (K1 & K2 & Hv & Hg) Hl]; subst. cbn [attempt_all].
    pose proof (t_reader_total e (i_type i) (i_key i) (i_val i) data pos fl Hp Hd He K1 K2 Hv) as T.
    destruct (er_read e (i_type i) (i_key i) (i_val i) (RS data pos fl)) as [[[ok v] s1]| |]; cbn [bind].
    + destruct T as (Tc & n & Hn & -> & _). specialize (IH (pos + n) Hn Hd He Hl).
      destruct (attempt_all e l (RS data (pos + n) fl)) as [[vs s2]| |]; cbn [bind].
      * destruct IH as (Im & p & Ip & ->). split; [cbn [map snd]; congruence|]. exists p. split; [lia|reflexivity].
      * destruct IH as [IH|(j & p & Ij & Ic & Ip & Is)]; [left; exact IH|]. right. exists j, p. split; [right; exact Ij|]. split; [exact Ic|]. split; [lia|exact Is].
      * exact IH.
    + destruct T as (Tc & [T|T]); [left; exact T|]. right. exists i, pos. split; [left; reflexivity|]. split; [exact Tc|]. split; [lia|exact T].
    + destruct T as (T & _). exact (Hg T).
Qed.
Lemma fuzz_gentle vs : Forall (fun v => len v = 4) vs -> Forall gentle (flat_map fuzz_round vs).
Proof.
  intros H. induction H as [|v vs Hv _ IH]; cbn [flat_map]; [constructor|]. apply Forall_app. split; [|exact IH].
  repeat constructor; try (vm_compute; congruence); cbn.
  - exact Hv.
  - tauto.
  - tauto.
  - tauto.
Qed.
Lemma t_fuzz e file flip vs : len file < 2^62 -> e_lim e < 2^60 -> Forall (fun v => len v = 4) vs ->
  match fuzz_pass e file flip vs with
  | Done (_, s') => exists p, p <= len file /\ s' = RS file p flip
  | Throw => e_lim e < 4 * len file \/ exists p, p <= len file /\
      (size_damage flip p (TInt I8) (CVec []) (list_byte_of_string "dv") (drop p file) \/
       size_damage flip p TString (CV (VS [])) (list_byte_of_string "ds") (drop p file))
  | Undef => False
  end.
Proof.
  intros Hf He Hv. pose proof (t_attempts e file flip (flat_map fuzz_round vs) 0 ltac:(lia) Hf He (fuzz_gentle vs Hv)) as T.
  unfold fuzz_pass. destruct (attempt_all e (flat_map fuzz_round vs) (RS file 0 flip)) as [[r s1]| |].
  - destruct T as (_ & p & Hp & E). exists p. split; [lia|exact E].
  - destruct T as [T|(i & p & Hi & Hc & Hp & Hs)]; [left; exact T|]. right. exists p. split; [lia|].
    apply in_flat_map in Hi. destruct Hi as (v & _ & [<-|[<-|[<-|[]]]]); cbn [i_type i_key i_val] in *; [|left; exact Hs|right; exact Hs].
    exfalso. destruct Hc as [Hc|Hc]; [exact Hc|discriminate].
  - exact T.
Qed.
