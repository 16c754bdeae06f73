(** * ThreadOwn: threads that share a thread_safe_map but no keys. Proofs. *)
From Coq Require Import Lia Sorting.Sorted.
From Verif Require Import Base KeySpec StdSet StdSetFacts ThreadMap ThreadMapSpec ThreadMapFacts.
Local Open Scope nat_scope.

Section Own.
Context {K V : Type} (lt : K -> K -> bool) (LT : strict_total_order lt) (dflt : V).
Notation sys := (msys K V).

(** The operations a thread still has before it or is in. *)
Definition todo (s : sys) (u : nat) (o : mop K V) : Prop := In o (m_prog s u) \/ exists i, cur (m_pc s u) = Some (i, o).
Lemma step_todo s t f s' u o : mstep lt dflt s t f = Some s' -> todo s' u o -> todo s u o.
Proof.
  intros E. destruct (Nat.eq_dec u t) as [->|N].
  2:{ destruct (step_other lt dflt _ _ _ _ _ E N) as (A & B & _). unfold todo. rewrite A, B. auto. }
  unfold mstep, access, todo in *.
  destruct (m_pc s t) as [|i q|i q|i q|i k n|i k n|i q r|i q r] eqn:P;
    repeat match type of E with
    | context [match m_prog s t with _ => _ end] => destruct (m_prog s t) as [|q0 q1] eqn:PR
    | context [match ?x with _ => _ end] => destruct x
    end; try discriminate; injection E as <-; cbn [m_prog m_pc goto set_data set_owner set_ub emit]; rewrite ?at_eq; cbn [cur];
    intros [H|(j & H)]; try (left; right; exact H); try (left; exact H); try discriminate;
    try (injection H as <- <-; right; eexists; reflexivity).
  injection H as <- <-. left. left. reflexivity.
Qed.

(** A step changes Data only at the key of the operation its thread is in. *)
Lemma step_data s L t f s' x : inv lt dflt s L -> mstep lt dflt s t f = Some s' ->
  mp_deref lt x (m_data s') = mp_deref lt x (m_data s) \/ exists i o, m_pc s t = PAccess i o /\ op_key o = x.
Proof.
  intros I E. unfold mstep, access in E.
  destruct (m_pc s t) as [|i o|i o|i o|i k n|i k n|i o r|i o r] eqn:P;
    try (repeat match type of E with context [match ?x with _ => _ end] => destruct x end;
         try discriminate; injection E as <-; left; reflexivity).
  destruct o as [k|k v|k].
  - injection E as <-. left. reflexivity.
  - destruct f; [injection E as <-; left; reflexivity|].
    destruct (mp_insert lt k v (m_data s)) as (d, b) eqn:D. injection E as <-. cbn [m_data goto set_data].
    destruct (insert_spec lt LT k v _ _ _ (i_sorted _ _ _ _ I) D) as (_ & B). destruct b.
    + destruct (equiv lt x k) eqn:Ex; [right; apply (equiv_iff lt LT) in Ex; subst; eauto|].
      left. apply B. intros ->. rewrite (equiv_refl lt LT) in Ex. discriminate.
    + left. destruct B as (-> & _). reflexivity.
  - injection E as <-. cbn [m_data goto set_data].
    destruct (equiv lt x k) eqn:Ex; [right; apply (equiv_iff lt LT) in Ex; subst; eauto|].
    left. apply (erase_other lt LT). intros ->. rewrite (equiv_refl lt LT) in Ex. discriminate.
Qed.

Lemma answers_snoc t (h : list (event K V)) e : answers t (h ++ [e]) =
  answers t h ++ match e with ERet u i o r => if Nat.eqb u t then [(i, o, r)] else [] | ECall _ _ _ => [] end.
Proof.
  unfold answers. rewrite of_thread_snoc, flat_map_app. destruct e; cbn [ev_thread]; destruct (Nat.eqb n t); reflexivity.
Qed.
Lemma step_answers s t f s' u : mstep lt dflt s t f = Some s' -> u <> t -> answers u (m_hist s') = answers u (m_hist s).
Proof. intros E N. destruct (step_other lt dflt _ _ _ _ _ E N) as (_ & _ & H). unfold answers. rewrite H. reflexivity. Qed.

(** A map changed at one key. *)
Definition upd (m : K -> option V) (k : K) (v : option V) : K -> option V := fun x => if equiv lt x k then v else m x.
Lemma upd_eq m k v : upd m k v k = v.
Proof. unfold upd. rewrite (equiv_refl lt LT). reflexivity. Qed.
Lemma upd_ne m k v x : x <> k -> upd m k v x = m x.
Proof. intros H. unfold upd. rewrite (equiv_ne lt LT) by exact H. reflexivity. Qed.

(** What holds for thread [t] with the private keys [Q]. *)
Definition done_part (s : sys) (t : nat) : list (nat * mop K V * mres V) :=
  answers t (m_hist s) ++ match m_pc s t with PHave i o r | PLeft i o r => [(i, o, r)] | _ => [] end.
Definition own (t : nat) (Q : K -> Prop) (s : sys) : Prop :=
  (forall o, todo s t o -> Q (op_key o)) /\ (forall u o, u <> t -> todo s u o -> ~ Q (op_key o)) /\
  exists m, run_seq dflt (fun _ => None) (done_part s t) m /\ forall k, Q k -> mp_deref lt k (m_data s) = m k.

Lemma own_other t Q s L u f s' : inv lt dflt s L -> u <> t -> mstep lt dflt s u f = Some s' -> own t Q s -> own t Q s'.
Proof.
  intros I N E (A & B & m & R & D).
  destruct (step_other lt dflt _ _ _ _ t E (not_eq_sym N)) as (Ep & _ & Eh).
  split; [intros o Ho; apply A; eapply step_todo; eassumption|]. split; [intros w o Hw Ho; eapply B; [exact Hw|eapply step_todo; eassumption]|].
  exists m. split.
  - unfold done_part, answers. rewrite Ep, Eh. exact R.
  - intros k Hk. rewrite <- (D k Hk). destruct (step_data _ _ _ _ _ k I E) as [H|(i & o & P & Ho)]; [exact H|].
    exfalso. apply (B u o N); [right; exists i; rewrite P; reflexivity|]. rewrite Ho. exact Hk.
Qed.
Lemma own_self t Q s L f s' : inv lt dflt s L -> mstep lt dflt s t f = Some s' -> own t Q s -> own t Q s'.
Proof.
  intros I E (A & B & m & R & D).
  split; [intros o Ho; apply A; eapply step_todo; eassumption|]. split; [intros w o Hw Ho; eapply B; [exact Hw|eapply step_todo; eassumption]|].
  unfold done_part in *. pose proof (i_node lt dflt s L I t) as Nd. unfold mstep, access in E.
  destruct (m_pc s t) as [|i o|i o|i o|i k n|i k n|i o r|i o r] eqn:P; cbn [node] in Nd; rewrite ?app_nil_r in R.
  - destruct (m_prog s t) as [|o q]; [discriminate|]. injection E as <-. cbn [m_hist m_pc m_data]. rewrite answers_snoc, at_eq, !app_nil_r. eauto.
  - destruct f.
    + injection E as <-. cbn [m_hist m_pc m_data goto]. rewrite at_eq. exists m. split; [|exact D].
      eapply seq_app; [exact R|]. apply D_threw. reflexivity.
    + destruct (m_owner s); [discriminate|]. injection E as <-. cbn [m_hist m_pc m_data goto set_owner]. rewrite at_eq, app_nil_r. eauto.
  - injection E as <-. cbn [m_hist m_pc m_data goto]. rewrite at_eq, app_nil_r. eauto.
  - assert (Ho : Q (op_key o)) by (apply A; right; exists i; rewrite P; reflexivity). destruct o as [k|k v|k]; cbn [op_key] in Ho.
    + injection E as <-. cbn [m_hist m_pc m_data goto]. rewrite at_eq, app_nil_r. eauto.
    + destruct f.
      * injection E as <-. cbn [m_hist m_pc m_data goto]. rewrite at_eq. exists m. split; [|exact D].
        eapply seq_app; [exact R|]. apply D_threw. reflexivity.
      * destruct (mp_insert lt k v (m_data s)) as (d, b) eqn:Di. injection E as <-. cbn [m_hist m_pc m_data goto set_data]. rewrite at_eq.
        destruct (insert_spec lt LT k v _ _ _ (i_sorted _ _ _ _ I) Di) as (_ & X). destruct b.
        -- destruct X as (X1 & X2 & X3). exists (upd m k (Some v)). split.
           ++ eapply seq_app; [exact R|]. apply D_new; [rewrite <- D by exact Ho; exact X1|apply upd_eq|intros x Hx; apply upd_ne; exact Hx].
           ++ intros x Hx. destruct (equiv lt x k) eqn:Ex; unfold upd; rewrite Ex; [apply (equiv_iff lt LT) in Ex; subst; exact X2|].
              rewrite X3; [apply D; exact Hx|]. intros ->. rewrite (equiv_refl lt LT) in Ex. discriminate.
        -- destruct X as (-> & w & X). exists m. split; [|exact D]. eapply seq_app; [exact R|].
           eapply D_taken; [rewrite <- D by exact Ho; exact X|reflexivity].
    + unfold mp_erase in E. injection E as <-. cbn [m_hist m_pc m_data goto set_data]. rewrite at_eq.
      pose proof (erase_count lt LT k (m_data s) (i_sorted _ _ _ _ I)) as C. destruct (mp_deref lt k (m_data s)) as [w|] eqn:Dk; rewrite C.
      * exists (upd m k None). split.
        -- eapply seq_app; [exact R|]. eapply D_erased; [rewrite <- D by exact Ho; exact Dk|apply upd_eq|intros x Hx; apply upd_ne; exact Hx].
        -- intros x Hx. destruct (equiv lt x k) eqn:Ex; unfold upd; rewrite Ex; [apply (equiv_iff lt LT) in Ex; subst; apply (erase_gone lt LT)|].
           rewrite (erase_other lt LT); [apply D; exact Hx|]. intros ->. rewrite (equiv_refl lt LT) in Ex. discriminate.
      * exists m. split; [eapply seq_app; [exact R|]; apply D_absent; [rewrite <- D by exact Ho; exact Dk|reflexivity]|].
        intros x Hx. destruct (equiv lt x k) eqn:Ex; [apply (equiv_iff lt LT) in Ex; subst; rewrite (erase_gone lt LT), <- D by exact Ho; symmetry; exact Dk|].
        rewrite (erase_other lt LT); [apply D; exact Hx|]. intros ->. rewrite (equiv_refl lt LT) in Ex. discriminate.
  - assert (Ho : Q k) by (apply (A (MFind k)); right; exists i; rewrite P; reflexivity).
    destruct n as [n|]; injection E as <-; cbn [m_hist m_pc m_data goto]; rewrite at_eq; rewrite ?app_nil_r; [eauto|].
    exists m. split; [|exact D]. eapply seq_app; [exact R|]. apply D_miss; [|reflexivity]. rewrite <- D by exact Ho.
    apply find_none. symmetry. exact (Nd k None eq_refl).
  - assert (Ho : Q k) by (apply (A (MFind k)); right; exists i; rewrite P; reflexivity).
    destruct f.
    + injection E as <-. cbn [m_hist m_pc m_data goto]. rewrite at_eq. exists m. split; [|exact D].
      eapply seq_app; [exact R|]. apply D_threw. reflexivity.
    + destruct (find_some lt LT k (m_data s) n (eq_sym (Nd k (Some n) eq_refl))) as (-> & v & Ev). rewrite Ev in E.
      injection E as <-. cbn [m_hist m_pc m_data goto]. rewrite at_eq. exists m. split; [|exact D].
      eapply seq_app; [exact R|]. apply D_hit; [rewrite <- D by exact Ho; exact Ev|reflexivity].
  - destruct (m_owner s) as [w|]; [destruct (Nat.eqb w t)|]; injection E as <-; cbn [m_hist m_pc m_data goto set_owner set_ub]; rewrite at_eq; eauto.
  - injection E as <-. cbn [m_hist m_pc m_data goto emit]. rewrite at_eq, answers_snoc, Nat.eqb_refl, app_nil_r. eauto.
Qed.
Lemma own_run t Q sch : forall s L, inv lt dflt s L -> own t Q s -> own t Q (mrun lt dflt s sch).
Proof.
  induction sch as [|(u, f) r IH]; intros s L I O; cbn [mrun]; [exact O|].
  destruct (mstep lt dflt s u f) as [s'|] eqn:E; [|eauto]. destruct (step_inv lt LT dflt _ _ _ _ _ I E) as (L' & I').
  apply (IH s' L' I'). destruct (Nat.eq_dec u t) as [->|N]; [exact (own_self t Q s L f s' I E O)|exact (own_other t Q s L u f s' I N E O)].
Qed.
Lemma run_prefix (m : K -> option V) l l' m2 : run_seq dflt m (l ++ l') m2 -> exists m1, run_seq dflt m l m1 /\ run_seq dflt m1 l' m2.
Proof.
  revert m. induction l as [|((i, o), r) l IH]; intros m H; cbn [app] in H.
  - exists m. split; [constructor; reflexivity|exact H].
  - inversion H; subst. match goal with X : run_seq _ _ (l ++ _) _ |- _ => destruct (IH _ X) as (mm & A & B) end. exists mm. split; [econstructor; eassumption|exact B].
Qed.

Lemma t_own progs t sch :
  (forall u, u <> t -> forall o p, In o (progs t) -> In p (progs u) -> op_key o <> op_key p) ->
  let s := mrun lt dflt (mstart progs) sch in
  exists m, run_seq dflt (fun _ => None) (answers t (m_hist s)) m /\
    (m_pc s t = PIdle -> forall o, In o (progs t) -> mp_deref lt (op_key o) (m_data s) = m (op_key o)).
Proof.
  intros H s. set (Q := fun k => exists o, In o (progs t) /\ op_key o = k).
  assert (O : own t Q s).
  { eapply own_run; [exact (inv_start lt dflt progs)|]. split; [|split].
    - intros o [Ho|(i & Ho)]; [exists o; auto|discriminate].
    - intros u o N [Ho|(i & Ho)] (p & Hp & E); [|discriminate]. exact (H u N p o Hp Ho E).
    - exists (fun _ => None). split; [constructor; reflexivity|reflexivity]. }
  destruct O as (_ & _ & m & R & D). unfold done_part in R.
  destruct (m_pc s t) eqn:P; rewrite ?app_nil_r in R; try (exists m; split; [exact R|intros X; try discriminate; intros o Ho; apply D; exists o; auto]).
  all: destruct (run_prefix _ _ _ _ R) as (mz & A & _); exists mz; split; [exact A|discriminate].
Qed.

(** The answers of a thread are answers to the calls of its program, in order. *)
Lemma answers_of_program progs t sch : let s := mrun lt dflt (mstart progs) sch in
  exists rest, progs t = map (fun c => snd (fst c)) (answers t (m_hist s)) ++ rest /\ (m_pc s t = PIdle -> rest = m_prog s t).
Proof.
  intros s. assert (W : view t s (progs t)).
  { apply run_view. split; [reflexivity|]. exists []. cbn. auto. }
  destruct W as (E & l & El & Al).
  assert (X : forall h : list (event K V), alternates h -> exists rest,
    calls h = map (fun c => snd (fst c)) (flat_map (fun e => match e with ERet _ i o r => [(i, o, r)] | ECall _ _ _ => [] end) h) ++ rest).
  { induction 1 as [|t0 i o|t0 i o r h _ (rest & IH)]; [exists []; reflexivity|exists [o]; reflexivity|]. exists rest. change (calls (ECall t0 i o :: ERet t0 i o r :: h)) with (o :: calls h). rewrite IH. reflexivity. }
  assert (Y : forall h : list (event K V), alternates h -> (forall x, alternates x -> alternates (h ++ x)) ->
    calls h = map (fun c => snd (fst c)) (flat_map (fun e => match e with ERet _ i o r => [(i, o, r)] | ECall _ _ _ => [] end) h)).
  { induction 1 as [|t0 i o|t0 i o r h _ IH]; intros Hx; [reflexivity| |].
    - specialize (Hx [ECall t0 i o] ltac:(constructor)). cbn in Hx. inversion Hx.
    - change (calls (ECall t0 i o :: ERet t0 i o r :: h)) with (o :: calls h). rewrite IH; [reflexivity|]. intros x Xx. specialize (Hx x Xx). cbn in Hx. inversion Hx; subst. assumption. }
  assert (Hl : alternates l) by (specialize (Al [] ltac:(constructor)); rewrite app_nil_r in Al; exact Al).
  unfold answers. rewrite El in *.
  destruct (cur (m_pc s t)) as [[i o]|] eqn:C.
  - destruct (X (l ++ [ECall t i o])) as (rest & Er); [apply Al; constructor|]. rewrite Er in E.
    exists (rest ++ m_prog s t). rewrite app_assoc. split; [exact E|]. intros P. rewrite P in C. discriminate.
  - rewrite app_nil_r in *. rewrite (Y l Hl Al) in E. exists (m_prog s t). auto.
Qed.
End Own.
