(** * GenLex: the tokens of the generated lines. Proofs. *)
From Coq Require Import Strings.String Strings.Ascii.
From Verif Require Import Base Types GenText CppText CppSem GenTextSpec.
Local Open Scope string_scope.
Local Open Scope list_scope.

Lemma app_assoc_s a b c : (a ^^ b) ^^ c = a ^^ (b ^^ c).
Proof. induction a as [|x a IH]; cbn; [reflexivity|]. f_equal. exact IH. Qed.
Lemma app_nil_s a : a ^^ "" = a.
Proof. induction a as [|x a IH]; cbn; [reflexivity|]. f_equal. exact IH. Qed.
Lemma snoc_app a c r : snoc a c ^^ r = a ^^ String c r.
Proof. unfold snoc. rewrite app_assoc_s. reflexivity. Qed.

Definition idchars (s : string) : Prop := all_chars id_char s = true.
(** Does a string begin with a character of an identifier? *)
Definition starts (s : string) : bool := match s with String c _ => id_char c | "" => false end.

Lemma lx_in a n r : idchars n -> lx (MId a) (n ^^ r) = lx (MId (a ^^ n)) r.
Proof.
  unfold idchars. revert a. induction n as [|c n IH]; intros a H; cbn [all_chars append] in *.
  - rewrite app_nil_s. reflexivity.
  - apply andb_prop in H. destruct H as [H1 H2]. cbn [lx]. rewrite H1. rewrite IH by exact H2. rewrite snoc_app. reflexivity.
Qed.
Lemma lx_name n r : idchars n -> n <> "" -> lx MNone (n ^^ r) = lx (MId n) r.
Proof.
  unfold idchars. destruct n as [|c n]; [congruence|]. cbn [all_chars append]. intros H _. apply andb_prop in H. destruct H as [H1 H2].
  cbn [lx]. rewrite H1. exact (lx_in (String c "") n r H2).
Qed.
Lemma lx_flush a r : starts r = false -> lx (MId a) r = word a :: lx MNone r.
Proof.
  destruct r as [|c r]; [reflexivity|]. cbn [starts]. intros H. cbn [lx]. rewrite H. reflexivity.
Qed.
Fixpoint noquote (s : string) : bool := match s with "" => true | String c r => negb (Ascii.eqb c """") && noquote r end.
Lemma lx_str a n r : noquote n = true -> lx (MStr a) (n ^^ r) = lx (MStr (a ^^ n)) r.
Proof.
  revert a. induction n as [|c n IH]; intros a H; cbn [noquote append] in *.
  - rewrite app_nil_s. reflexivity.
  - apply andb_prop in H. destruct H as [H1 H2]. cbn [lx]. destruct (Ascii.eqb c """"); [discriminate|].
    rewrite IH by exact H2. rewrite snoc_app. reflexivity.
Qed.
Lemma id_char_quote : id_char """" = false. Proof. reflexivity. Qed.
Lemma idchars_noquote n : idchars n -> noquote n = true.
Proof.
  unfold idchars. induction n as [|c n IH]; cbn; [reflexivity|]. intros H. apply andb_prop in H. destruct H as [H1 H2].
  destruct (Ascii.eqb_spec c """") as [e|e]; [subst c; rewrite id_char_quote in H1; discriminate|]. cbn. apply IH. exact H2.
Qed.

(** The lexer over a known piece of text in front of something else: the tokens and the state reached; None if it depends on
    what follows. [k]: what follows begins with a character of an identifier. *)
Fixpoint run (k : bool) (m : lmode) (s : string) : option (list tok * lmode) :=
  match s with
  | EmptyString => Some ([], m)
  | String c r =>
    match m with
    | MStr a => if Ascii.eqb c """" then match run k MNone r with Some (t, m') => Some (Str a :: t, m') | None => None end
                else run k (MStr (snoc a c)) r
    | MId a =>
      if id_char c then run k (MId (snoc a c)) r else
      match
        (if space c then run k MNone r else if Ascii.eqb c """" then run k (MStr "") r else
         match r with
         | String d r2 =>
           if comment c d then None else
           match sym2 c d with
           | Some y => match run k MNone r2 with Some (t, m') => Some (Sy y :: t, m') | None => None end
           | None => match run k MNone r with Some (t, m') => Some (sym1 c :: t, m') | None => None end
           end
         | EmptyString => if k then Some ([sym1 c], MNone) else None
         end)
      with Some (t, m') => Some (word a :: t, m') | None => None end
    | MNone =>
      if id_char c then run k (MId (String c "")) r else
        (if space c then run k MNone r else if Ascii.eqb c """" then run k (MStr "") r else
         match r with
         | String d r2 =>
           if comment c d then None else
           match sym2 c d with
           | Some y => match run k MNone r2 with Some (t, m') => Some (Sy y :: t, m') | None => None end
           | None => match run k MNone r with Some (t, m') => Some (sym1 c :: t, m') | None => None end
           end
         | EmptyString => if k then Some ([sym1 c], MNone) else None
         end)
    end
  end.
Lemma sym2_id c d : id_char d = true -> sym2 c d = None /\ comment c d = false.
Proof.
  intros H. destruct d as [[|] [|] [|] [|] [|] [|] [|] [|]]; try discriminate H;
    destruct c as [[|] [|] [|] [|] [|] [|] [|] [|]]; split; reflexivity.
Qed.
Lemma lx_run k : forall m s r ts m', run k m s = Some (ts, m') -> (k = true -> starts r = true) -> lx m (s ^^ r) = ts ++ lx m' r.
Proof.
  intros m s r. revert m.
  assert (G : forall n s, (String.length s <= n)%nat -> forall m ts m', run k m s = Some (ts, m') -> (k = true -> starts r = true) -> lx m (s ^^ r) = ts ++ lx m' r).
  { clear s. induction n as [|n IHn]; intros s Hn m ts m' H K.
    { destruct s; [|cbn in Hn; lia]. cbn in H. injection H as <- <-. reflexivity. }
    destruct s as [|c s]; [cbn in H; injection H as <- <-; reflexivity|].
    cbn [String.length] in Hn.
    assert (IH : forall m ts m', run k m s = Some (ts, m') -> (k = true -> starts r = true) -> lx m (s ^^ r) = ts ++ lx m' r)
      by (apply IHn; lia).
    assert (IH2 : forall d s2, s = String d s2 -> forall m ts m', run k m s2 = Some (ts, m') -> (k = true -> starts r = true) -> lx m (s2 ^^ r) = ts ++ lx m' r).
    { intros d s2 ->. apply IHn. cbn [String.length] in Hn. lia. }
    clear IHn. cbn [run append lx] in *.
    assert (Z : forall ts0 m0,
      (if space c then run k MNone s else if Ascii.eqb c """" then run k (MStr "") s else
         match s with
         | String d r2 =>
           if comment c d then None else
           match sym2 c d with
           | Some y => match run k MNone r2 with Some (t, m') => Some (Sy y :: t, m') | None => None end
           | None => match run k MNone s with Some (t, m') => Some (sym1 c :: t, m') | None => None end
           end
         | EmptyString => if k then Some ([sym1 c], MNone) else None
         end) = Some (ts0, m0) ->
      (if space c then lx MNone (s ^^ r) else if Ascii.eqb c """" then lx (MStr "") (s ^^ r) else
       match s ^^ r with
       | String d r2 =>
         if comment c d then [] else match sym2 c d with Some y => Sy y :: lx MNone r2 | None => sym1 c :: lx MNone (s ^^ r) end
       | EmptyString => [sym1 c]
       end) = ts0 ++ lx m0 r).
    { intros ts0 m0 Z. destruct (space c); [exact (IH _ _ _ Z K)|]. destruct (Ascii.eqb c """"); [exact (IH _ _ _ Z K)|].
      destruct s as [|d s2].
      - destruct k; [|discriminate]. injection Z as <- <-. cbn [append]. specialize (K eq_refl).
        destruct r as [|d r]; [discriminate|]. cbn [starts] in K. destruct (sym2_id c d K) as [-> ->]. reflexivity.
      - cbn [append]. destruct (comment c d); [discriminate|]. destruct (sym2 c d) as [y|].
        + destruct (run k MNone s2) as [[t m1]|] eqn:E; [|discriminate]. injection Z as <- <-. cbn. f_equal.
          exact (IH2 d s2 eq_refl _ _ _ E K).
        + destruct (run k MNone (String d s2)) as [[t m1]|] eqn:E; [|discriminate]. injection Z as <- <-.
          rewrite <- app_comm_cons. f_equal. exact (IH _ _ _ E K). }
    destruct m as [|a|a].
    - destruct (id_char c); [exact (IH _ _ _ H K)|]. exact (Z _ _ H).
    - destruct (id_char c); [exact (IH _ _ _ H K)|].
      match type of H with match ?x with _ => _ end = _ => destruct x as [[t m1]|] eqn:E; [|discriminate] end.
      injection H as <- <-. rewrite <- app_comm_cons. f_equal. exact (Z _ _ eq_refl).
    - destruct (Ascii.eqb c """").
      + destruct (run k MNone s) as [[t m1]|] eqn:E; [|discriminate]. injection H as <- <-. cbn. f_equal. exact (IH _ _ _ E K).
      + exact (IH _ _ _ H K). }
  intros m ts m' H K. exact (G _ s (le_n _) m ts m' H K).
Qed.

(** Identifiers. *)
Lemma has_false n l : has n l = false -> forall m, In m l -> streqb n m = false.
Proof.
  intros H m i. destruct (streqb n m) eqn:E; [|reflexivity]. unfold has in H.
  rewrite <- H. symmetry. apply existsb_exists. exists m. auto.
Qed.
Lemma has_true n l : has n l = true <-> In n l.
Proof.
  unfold has. rewrite existsb_exists. split.
  - intros (m & i & e). apply String.eqb_eq in e. subst. exact i.
  - intros i. exists n. split; [exact i|]. apply String.eqb_refl.
Qed.
Lemma has_iff n l : has n l = false <-> ~ In n l.
Proof. rewrite <- has_true. destruct (has n l); split; congruence. Qed.
Lemma ident_chars n : ident_ok n = true -> idchars n.
Proof. unfold ident_ok. intros H. apply andb_prop in H. destruct H as [H _]. apply andb_prop in H. apply H. Qed.
Lemma ident_ne n : ident_ok n = true -> n <> "".
Proof. intros H ->. discriminate H. Qed.
Lemma keyword_none s l : (forall m, In m (map fst l) -> String.eqb s m = false) -> keyword s l = Id s.
Proof.
  induction l as [|[n k] l IH]; cbn; [reflexivity|]. intros H. rewrite (H n (or_introl eq_refl)). apply IH. intros m i. apply H. auto.
Qed.
Lemma keywords_reserved : forallb (fun n => has n reserved_words) (map fst keywords) = true.
Proof. reflexivity. Qed.
Lemma ident_word n : ident_ok n = true -> word n = Id n.
Proof.
  intros H. unfold ident_ok in H. apply andb_prop in H. destruct H as [_ H].
  apply keyword_none. intros m i. apply (has_false n reserved_words).
  - destruct (has n reserved_words); [discriminate|reflexivity].
  - pose proof keywords_reserved as R. rewrite forallb_forall in R. apply has_true. exact (R m i).
Qed.
Lemma ident_starts n r : ident_ok n = true -> starts (n ^^ r) = true.
Proof.
  intros H. pose proof (ident_chars n H) as C. pose proof (ident_ne n H) as E. destruct n as [|c n]; [congruence|].
  cbn in C |- *. apply andb_prop in C. apply C.
Qed.
(** The names of types: identifiers or data types. *)
Definition tword (s : string) : Prop := idchars s /\ s <> "" /\ (word s = Id s \/ s = "bool").
Lemma assoc_in {A} n (l : list (string * A)) a : assoc n l = Some a -> In (n, a) l.
Proof.
  induction l as [|[m t] l IH]; cbn; [discriminate|]. destruct (String.eqb_spec n m) as [->|e]; [|auto].
  intros H. injection H as ->. auto.
Qed.
Lemma type_names_ok : forallb (fun p => all_chars id_char (fst p) && negb (streqb (fst p) "") &&
   (match word (fst p) with Id _ => true | _ => streqb (fst p) "bool" end)) type_names = true.
Proof. vm_compute. reflexivity. Qed.
Lemma word_id s t : word s = Id t -> t = s.
Proof.
  unfold word. generalize keywords. induction l as [|[n k] l IH]; cbn; [congruence|].
  destruct (String.eqb s n); [discriminate|exact IH].
Qed.
Lemma type_word s : type_ok s = true -> tword s.
Proof.
  intros H. unfold type_ok in H. apply orb_prop in H. destruct H as [H|H].
  - split; [exact (ident_chars s H)|]. split; [exact (ident_ne s H)|]. left. exact (ident_word s H).
  - destruct (base_type_variant s) as [t|] eqn:E; [|discriminate]. apply assoc_in in E.
    pose proof type_names_ok as R. rewrite forallb_forall in R. specialize (R _ E). cbn [fst] in R.
    apply andb_prop in R. destruct R as [R R3]. apply andb_prop in R. destruct R as [R1 R2].
    split; [exact R1|]. split.
    + intros ->. discriminate R2.
    + destruct (word s) as [u|?|?|?|?] eqn:Ew; [left; f_equal; exact (word_id s u Ew)|right..];
        apply String.eqb_eq; exact R3.
Qed.
Lemma tword_starts n r : tword n -> starts (n ^^ r) = true.
Proof.
  intros (C & E & _). destruct n as [|c n]; [congruence|]. cbn in C |- *. apply andb_prop in C. apply C.
Qed.

(** ** Lines in pieces *)
(** A line is made of known text, words (with their tokens) and the contents of string literals. *)
Inductive piece := L (s : string) | W (s : string) (t : tok) | Q (s : string).
Fixpoint text (ps : list piece) : string :=
  match ps with [] => "" | (L s | W s _ | Q s) :: r => s ^^ text r end.
Definition good (s : string) (t : tok) : Prop := idchars s /\ s <> "" /\ word s = t.
Fixpoint pieces_ok (ps : list piece) : Prop :=
  match ps with [] => True | L _ :: r => pieces_ok r | W s t :: r => good s t /\ pieces_ok r | Q s :: r => noquote s = true /\ pieces_ok r end.
Definition quote_next (ps : list piece) : bool := match ps with L (String c _) :: _ => Ascii.eqb c """" | _ => false end.
Definition id_next (ps : list piece) : bool := match ps with L (String c _) :: _ => id_char c | [] => false | _ => true end.
Fixpoint plex (m : lmode) (ps : list piece) : option (list tok) :=
  match ps with
  | [] => Some (flush m)
  | L s :: r =>
    match r with
    | [] => Some (lx m s)
    | _ =>
      match run (match r with W _ _ :: _ => true | _ => false end) m s with
      | Some (ts, m') => match plex m' r with Some u => Some (ts ++ u) | None => None end
      | None => None
      end
    end
  | W s t :: r =>
    match m with
    | MNone => if id_next r then None else match plex MNone r with Some u => Some (t :: u) | None => None end
    | _ => None
    end
  | Q s :: r => match m with MStr "" => if quote_next r then plex (MStr s) r else None | _ => None end
  end.
Lemma starts_id_next r : pieces_ok r -> id_next r = false -> starts (text r) = false.
Proof.
  destruct r as [|[[|c l]|s t|s] r]; cbn; try discriminate; auto.
Qed.
Lemma good_starts s t r : good s t -> starts (s ^^ r) = true.
Proof. intros (C & E & _). destruct s as [|c n]; [congruence|]. cbn in C |- *. apply andb_prop in C. apply C. Qed.
Lemma plex_ok : forall ps m ts, pieces_ok ps -> plex m ps = Some ts -> lx m (text ps) = ts.
Proof.
  induction ps as [|[s|s t|s] r IH]; intros m ts K H; cbn [plex text pieces_ok] in *.
  - injection H as <-. reflexivity.
  - destruct r as [|p r].
    + injection H as <-. cbn [text]. rewrite app_nil_s. reflexivity.
    + destruct (run (match p :: r with W _ _ :: _ => true | _ => false end) m s) as [[us m']|] eqn:E; [|discriminate].
      destruct (plex m' (p :: r)) as [u|] eqn:F; [|discriminate]. injection H as <-.
      rewrite (lx_run _ _ _ _ _ _ E).
      * f_equal. exact (IH _ _ K F).
      * destruct p as [?|s' t'|?]; try discriminate. intros _. cbn [text pieces_ok] in *. exact (good_starts s' t' (text r) (proj1 K)).
  - destruct m; try discriminate. destruct (id_next r) eqn:E; [discriminate|].
    destruct (plex MNone r) as [u|] eqn:F; [|discriminate]. injection H as <-. destruct K as [(C & Ne & Wt) K].
    rewrite lx_name by assumption. rewrite lx_flush by (apply starts_id_next; assumption). rewrite Wt. f_equal. exact (IH _ _ K F).
  - destruct m as [|?|[|]]; try discriminate. destruct (quote_next r) eqn:E; [|discriminate]. destruct K as [K1 K2].
    rewrite lx_str by exact K1. cbn [append]. exact (IH _ _ K2 H).
Qed.

Lemma good_ident n : ident_ok n = true -> good n (Id n).
Proof. intros H. split; [exact (ident_chars n H)|]. split; [exact (ident_ne n H)|exact (ident_word n H)]. Qed.
Lemma good_v n t : good n t -> good ("v_" ^^ n) (Id ("v_" ^^ n)).
Proof.
  intros (C & E & _). split; [exact C|]. split; [discriminate|]. reflexivity.
Qed.
Lemma good_noquote n t : good n t -> noquote n = true.
Proof. intros (C & _). exact (idchars_noquote n C). Qed.
Lemma good_tword t : tword t -> good t (word t).
Proof. intros (C & E & _). split; [exact C|]. split; [exact E|reflexivity]. Qed.

(** The part of a text before a final "v_". *)
Fixpoint before_v (s : string) : option string :=
  match s with
  | EmptyString => None
  | String c r => if streqb s "v_" then Some "" else match before_v r with Some p => Some (String c p) | None => None end
  end.
Fixpoint last_quote (s : string) : bool :=
  match s with EmptyString => false | String c "" => Ascii.eqb c """" | String _ r => last_quote r end.

(** Writing a line as pieces. *)
Ltac tok_of n :=
  match goal with
  | H : good n ?t |- _ => t
  end.
Ltac pieces l :=
  lazymatch l with
  | (String ?c ?a ^^ (String ?d ?b ^^ ?r)) =>
      let l1 := eval cbn [append] in (String c a ^^ String d b) in pieces (l1 ^^ r)
  | (String ?c ?a ^^ String ?d ?b) =>
      let l1 := eval cbn [append] in (String c a ^^ String d b) in constr:([L l1])
  | (String ?c ?a ^^ (?n ^^ ?r)) =>
      let q := eval vm_compute in (last_quote (String c a)) in
      let r' := pieces r in
      lazymatch q with
      | true => constr:(L (String c a) :: Q n :: r')
      | false =>
        let b := eval vm_compute in (before_v (String c a)) in
        lazymatch b with
        | Some ?p => constr:(L p :: W ("v_" ^^ n) (Id ("v_" ^^ n)) :: r')
        | None => let t := tok_of n in constr:(L (String c a) :: W n t :: r')
        end
      end
  | (String ?c ?a ^^ ?n) => let t := tok_of n in constr:([L (String c a); W n t])
  | (?n ^^ ?r) => let t := tok_of n in let r' := pieces r in constr:(W n t :: r')
  | String ?c ?a => constr:([L (String c a)])
  | "" => constr:(@nil piece)
  end.
Ltac pok := cbn [pieces_ok]; repeat (split; [first [assumption | eapply good_v; eassumption | eapply good_noquote; eassumption]|]); exact Logic.I.
Ltac lex_one :=
  match goal with
  | |- context [lex_line ?l] =>
    let l' := eval unfold dq in l in
    let ps := pieces l' in
    let ts := eval vm_compute in (plex MNone ps) in
    lazymatch ts with
    | Some ?u =>
      let E := fresh "E" in
      assert (E : lex_line l = u);
      [ transitivity (lx MNone (text ps)); [first [reflexivity | unfold lex_line; cbn [text append]; rewrite app_nil_s; reflexivity]
        | apply plex_ok; [pok | vm_compute; reflexivity] ]
      | rewrite E; clear E ]
    end
  end.
