(** * GenHeader: the generated header, parsed. Proofs. *)
From Coq Require Import Strings.String Strings.Ascii.
From Verif Require Import Base Types GenText CppText CppSem GenTextSpec GenLex GenParse GenDecls.
Local Open Scope string_scope.
Local Open Scope list_scope.

(** ** The text of types *)
Fixpoint tn_toks (t : tname) : list tok :=
  match t with
  | TN s => [word s]
  | TA1 s a => Id s :: Sy Lt :: tn_toks a ++ [Sy Gt]
  | TA2 s a b => Id s :: Sy Lt :: tn_toks a ++ Sy Comma :: tn_toks b ++ [Sy Gt]
  end.
(** Symbols that begin no longer symbol. *)
Definition lone (c : ascii) : bool := match c with "<"%char | ">"%char | ","%char | ";"%char => true | _ => false end.
Lemma lone_lx c r : lone c = true -> lx MNone (String c r) = sym1 c :: lx MNone r.
Proof.
  destruct c as [[|] [|] [|] [|] [|] [|] [|] [|]]; cbn; try discriminate; intros _; destruct r; reflexivity.
Qed.
Lemma lx_word n r : good n (word n) -> starts r = false -> lx MNone (n ^^ r) = word n :: lx MNone r.
Proof. intros (C & E & _) H. rewrite lx_name by assumption. apply lx_flush. exact H. Qed.
Lemma lone_starts c r : lone c = true -> starts (String c r) = false.
Proof. destruct c as [[|] [|] [|] [|] [|] [|] [|] [|]]; cbn; try discriminate; reflexivity. Qed.
Lemma type_good s : type_ok s = true -> good s (word s).
Proof. intros H. apply good_tword. apply type_word. exact H. Qed.
Lemma tn_lx t : tn_ok t = true -> forall r, starts r = false -> lx MNone (tn_text t ^^ r) = tn_toks t ++ lx MNone r.
Proof.
  induction t as [s|s a IHa|s a IHa b IHb]; cbn [tn_ok tn_text tn_toks]; intros H r Hr.
  - rewrite lx_word by (try exact Hr; apply type_good; exact H). reflexivity.
  - apply andb_prop in H. destruct H as [H1 H2]. pose proof (good_ident s H1) as G. pose proof (ident_word s H1) as Ew.
    rewrite !app_assoc_s. cbn [append]. rewrite lx_word by (try reflexivity; rewrite Ew; exact G). rewrite Ew.
    rewrite lone_lx by reflexivity. rewrite (IHa H2) by reflexivity. rewrite lone_lx by reflexivity.
    cbn [app]. rewrite <- app_assoc. reflexivity.
  - apply andb_prop in H. destruct H as [H H3]. apply andb_prop in H. destruct H as [H1 H2].
    pose proof (good_ident s H1) as G. pose proof (ident_word s H1) as Ew.
    rewrite !app_assoc_s. cbn [append]. rewrite lx_word by (try reflexivity; rewrite Ew; exact G). rewrite Ew.
    rewrite lone_lx by reflexivity. rewrite (IHa H2) by reflexivity. rewrite lone_lx by reflexivity.
    rewrite (IHb H3) by reflexivity. rewrite lone_lx by reflexivity.
    cbn [app]. rewrite <- !app_assoc. cbn [app]. rewrite <- app_assoc. reflexivity.
Qed.

(** ** Parsing types *)
(** What may follow a type. *)
Definition after_type (l : list tok) : bool :=
  match l with Sy (Gt | Comma | Semi) :: _ => true | _ => false end.
Lemma qrest_stop n l : (match l with Sy Colons :: _ => false | _ => true end) = true -> qrest (S n) l = Some ([], l).
Proof. destruct l as [|[?|?|?|[]|?] l]; try reflexivity; discriminate. Qed.
Lemma ptype_id m s l : (match l with Sy (Colons | Lt) :: _ => false | _ => true end) = true ->
  ptype (S m) (Id s :: l) = Some (Ct [s] [], l).
Proof.
  intros H. cbn [ptype]. unfold qname, pbind, ident. rewrite qrest_stop by (destruct l as [|[?|?|?|[]|?] l]; try reflexivity; discriminate).
  unfold pret. assert (O : opt Lt l = Some (false, l)) by (destruct l as [|[?|?|?|[]|?] l]; try reflexivity; discriminate).
  rewrite O. reflexivity.
Qed.
Lemma ptype_args m s l : ptype (S m) (Id s :: Sy Lt :: l) =
  match pargs m l with Some (a, Sy Gt :: r) => Some (Ct [s] a, r) | _ => None end.
Proof.
  cbn [ptype]. unfold qname, pbind, ident. rewrite qrest_stop by reflexivity. unfold pret. cbn [opt sym_eqb].
  destruct (pargs m l) as [[a [|[?|?|?|[]|?] r]]|]; reflexivity.
Qed.
Lemma palts_one m l t r : ptype m l = Some (t, r) -> after_type r = true -> palts (S m) l = Some ([t], r).
Proof.
  intros H A. cbn [palts]. unfold pbind. rewrite H. destruct r as [|[?|?|?|[]|?] r]; try discriminate A; reflexivity.
Qed.
Lemma pargs_last m l a r : palts m l = Some (a, Sy Gt :: r) -> pargs (S m) l = Some ([a], Sy Gt :: r).
Proof. intros H. cbn [pargs]. unfold pbind. rewrite H. reflexivity. Qed.
Lemma pargs_more m l a r : palts m l = Some (a, Sy Comma :: r) ->
  pargs (S m) l = match pargs m r with Some (b, r2) => Some (a :: b, r2) | None => None end.
Proof. intros H. cbn [pargs]. unfold pbind. rewrite H. cbn [opt sym_eqb]. destruct (pargs m r) as [[b r2]|]; reflexivity. Qed.
Lemma word_type s l m : type_ok s = true -> after_type l = true -> ptype (S m) (word s :: l) = Some (Ct [s] [], l).
Proof.
  intros H A. destruct (type_word s H) as (_ & _ & [E|E]).
  - rewrite E. apply ptype_id. destruct l as [|[?|?|?|[]|?] l]; try reflexivity; discriminate.
  - subst s. reflexivity.
Qed.
Lemma tn_parse t : tn_ok t = true -> forall n r, after_type r = true ->
  ptype (S (4 * tn_depth t) + n) (tn_toks t ++ r) = Some (tn_type t, r).
Proof.
  induction t as [s|s a IHa|s a IHa b IHb]; cbn [tn_ok tn_toks tn_depth tn_type]; intros H n r A.
  - change (S (4 * 0) + n)%nat with (S n). apply word_type; assumption.
  - apply andb_prop in H. destruct H as [H1 H2].
    replace (S (4 * S (tn_depth a)) + n)%nat with (S (S (S (S (4 * tn_depth a) + (1 + n))))) by lia.
    cbn [app]. rewrite ptype_args. rewrite <- app_assoc. cbn [app].
    erewrite pargs_last; [reflexivity|]. eapply palts_one; [apply IHa; [exact H2|]|]; reflexivity.
  - apply andb_prop in H. destruct H as [H H3]. apply andb_prop in H. destruct H as [H1 H2].
    set (d := Nat.max (tn_depth a) (tn_depth b)).
    assert (Da : (tn_depth a <= d)%nat) by (unfold d; lia). assert (Db : (tn_depth b <= d)%nat) by (unfold d; lia). clearbody d.
    replace (S (4 * S d) + n)%nat with (S (S (S (S (4 * d) + (1 + n))))) by lia.
    cbn [app]. rewrite ptype_args. rewrite <- app_assoc. cbn [app]. rewrite <- app_assoc. cbn [app].
    erewrite pargs_more.
    2:{ eapply palts_one; [|reflexivity].
        replace (S (4 * d) + (1 + n))%nat with (S (4 * tn_depth a) + (4 * d - 4 * tn_depth a + (1 + n)))%nat by lia.
        apply IHa; [exact H2|reflexivity]. }
    replace (S (S (4 * d) + (1 + n)))%nat with (S (S (S (4 * d) + n)))%nat by lia.
    erewrite pargs_last; [reflexivity|]. eapply palts_one; [|reflexivity].
    replace (S (4 * d) + n)%nat with (S (4 * tn_depth b) + (4 * d - 4 * tn_depth b + n))%nat by lia.
    apply IHb; [exact H3|reflexivity].
Qed.

(** ** The typedefs *)
Fixpoint joined (s : sym) (l : list (list tok)) : list tok :=
  match l with [] => [] | [x] => x | x :: r => x ++ Sy s :: joined s r end.
Lemma joined_cons s x y l : joined s (x :: y :: l) = x ++ Sy s :: joined s (y :: l).
Proof. reflexivity. Qed.
Definition flag_toks (t : string) (f : string) : list tok := [Id (t ^^ "Flags"); Sy Colons; Id f].
Fixpoint ends_in (e s : string) : bool :=
  streqb e s || match s with EmptyString => false | String _ r => ends_in e r end.
Lemma ends_app e : forall a, ends_in e (a ^^ e) = true.
Proof.
  induction a as [|c a IH]; cbn [append].
  - unfold ends_in. destruct e; rewrite (String.eqb_refl _ : streqb _ _ = true); reflexivity.
  - cbn [ends_in]. rewrite IH. apply orb_true_r.
Qed.
Lemma idchars_app a b : idchars a -> idchars b -> idchars (a ^^ b).
Proof.
  unfold idchars. intros A B. induction a as [|c a IH]; cbn in *; [exact B|]. apply andb_prop in A. destruct A as [A1 A2].
  rewrite A1. exact (IH A2).
Qed.
Lemma flags_good t : ident_ok t = true -> good (t ^^ "Flags") (Id (t ^^ "Flags")).
Proof.
  intros H. split; [apply idchars_app; [exact (ident_chars t H)|reflexivity]|]. split.
  - destruct t; discriminate.
  - apply keyword_none. intros m i. destruct (String.eqb_spec (t ^^ "Flags") m) as [e|e]; [|reflexivity]. exfalso.
    assert (F : forallb (fun k => negb (ends_in "Flags" k)) (map fst keywords) = true) by reflexivity.
    rewrite forallb_forall in F. specialize (F m i). rewrite <- e, ends_app in F. discriminate.
Qed.
Lemma types_true l r : (forall a, In a l -> tn_ok a = true) -> starts r = false ->
  starts (decl_types true (map tn_text l) ^^ r) = false /\
  lx MNone (decl_types true (map tn_text l) ^^ r) = flat_map (fun a => Sy Comma :: tn_toks a) l ++ lx MNone r.
Proof.
  induction l as [|a l IH]; intros H Hr; [split; [exact Hr|reflexivity]|].
  destruct IH as [A B]; [intros b i; apply H; right; exact i|exact Hr|].
  cbn [map decl_types flat_map append]. split; [reflexivity|]. rewrite lone_lx by reflexivity.
  rewrite app_assoc_s, tn_lx by (try exact A; apply H; left; reflexivity). rewrite B. cbn [app]. rewrite <- app_assoc. reflexivity.
Qed.
Lemma joined_types a l : joined Comma (map tn_toks (a :: l)) = tn_toks a ++ flat_map (fun b => Sy Comma :: tn_toks b) l.
Proof.
  revert a. induction l as [|b l IH]; intros a; [cbn; rewrite app_nil_r; reflexivity|].
  cbn [map]. rewrite joined_cons. change (tn_toks b :: map tn_toks l) with (map tn_toks (b :: l)). rewrite IH. reflexivity.
Qed.
Lemma types_lx a l r : (forall b, In b (a :: l) -> tn_ok b = true) -> starts r = false ->
  lx MNone (decl_types false (map tn_text (a :: l)) ^^ r) = joined Comma (map tn_toks (a :: l)) ++ lx MNone r.
Proof.
  intros H Hr. destruct (types_true l r) as [A B]; [intros b i; apply H; right; exact i|exact Hr|].
  cbn [map decl_types append]. rewrite app_assoc_s, tn_lx by (try exact A; apply H; left; reflexivity).
  rewrite B. change (tn_toks a :: map tn_toks l) with (map tn_toks (a :: l)). rewrite joined_types, <- app_assoc. reflexivity.
Qed.
Lemma bar_lx r : starts r = true -> lx MNone ("|" ^^ r) = Sy Bar :: lx MNone r.
Proof.
  destruct r as [|c r]; [discriminate|]. cbn [starts append]. intros H. cbn [lx id_char space].
  destruct (sym2_id "|" c H) as [A B]. 
  change (lx MNone (String "|" (String c r))) with
    (if comment "|" c then [] else match sym2 "|" c with Some y => Sy y :: lx MNone r | None => sym1 "|" :: lx MNone (String c r) end).
  rewrite A, B. reflexivity.
Qed.
Lemma flag_lx t f r : ident_ok t = true -> ident_ok f = true -> starts r = false ->
  lx MNone (t ^^ "Flags::" ^^ f ^^ r) = flag_toks t f ++ lx MNone r.
Proof.
  intros Ht Hf Hr. change ("Flags::" ^^ f ^^ r) with ("Flags" ^^ "::" ^^ f ^^ r). rewrite <- app_assoc_s.
  pose proof (flags_good t Ht) as (C & E & Wt). rewrite lx_word by (try reflexivity; repeat split; assumption). rewrite Wt.
  cbn [append flag_toks app]. f_equal.
  change (lx MNone (String ":" (String ":" (f ^^ r)))) with (Sy Colons :: lx MNone (f ^^ r)). f_equal.
  rewrite lx_word by (try exact Hr; rewrite (ident_word f Hf); exact (good_ident f Hf)). rewrite (ident_word f Hf). reflexivity.
Qed.
Lemma flags_starts t l r : ident_ok t = true -> starts r = false -> starts (decl_flags t true l ^^ r) = false.
Proof. destruct l; intros Ht Hr; [exact Hr|reflexivity]. Qed.
Lemma decl_flags_cons t f l : decl_flags t false (f :: l) = t ^^ "Flags::" ^^ f ^^ decl_flags t true l.
Proof. reflexivity. Qed.
Lemma flags_lx t : ident_ok t = true -> forall l f r, (forall g, In g (f :: l) -> ident_ok g = true) -> starts r = false ->
  lx MNone (decl_flags t false (f :: l) ^^ r) = joined Bar (map (flag_toks t) (f :: l)) ++ lx MNone r.
Proof.
  intros Ht. induction l as [|g l IH]; intros f r H Hr; rewrite decl_flags_cons, !app_assoc_s.
  - rewrite flag_lx; [reflexivity|exact Ht|apply H; left; reflexivity|exact Hr].
  - rewrite flag_lx; [|exact Ht|apply H; left; reflexivity|reflexivity].
    cbn [map]. rewrite joined_cons, <- app_assoc. f_equal. cbn [app].
    change (decl_flags t true (g :: l) ^^ r) with ("|" ^^ (decl_flags t false (g :: l) ^^ r)).
    rewrite bar_lx by (rewrite decl_flags_cons, app_assoc_s; apply ident_starts; exact Ht).
    f_equal. apply (IH g r); [intros h i; apply H; right; exact i|exact Hr].
Qed.

(** The groups between commas. *)
Lemma pargs_groups B : forall gs n r, gs <> [] ->
  (forall g, In g gs -> forall m r, (B <= m)%nat -> after_type r = true -> palts m (fst g ++ r) = Some (snd g, r)) ->
  (length gs + B <= n)%nat -> pargs n (joined Comma (map fst gs) ++ Sy Gt :: r) = Some (map snd gs, Sy Gt :: r).
Proof.
  induction gs as [|g gs IH]; intros n r N H Hn; [congruence|]. cbn [length] in Hn. destruct n as [|n]; [lia|].
  destruct gs as [|h gs].
  - cbn [map joined]. rewrite (pargs_last n _ (snd g) r); [reflexivity|]. apply H; [left; reflexivity|lia|reflexivity].
  - cbn [map]. rewrite joined_cons, <- app_assoc. cbn [app].
    rewrite (pargs_more n _ (snd g) (joined Comma (fst h :: map fst gs) ++ Sy Gt :: r)); [|apply H; [left; reflexivity|lia|reflexivity]].
    change (fst h :: map fst gs) with (map fst (h :: gs)).
    rewrite (IH n r); [reflexivity|discriminate|intros x i; apply H; right; exact i|cbn [length] in *; lia].
Qed.
Lemma ptype_flag m t f r : (match r with Sy (Colons | Lt) :: _ => false | _ => true end) = true ->
  ptype (S (S m)) (flag_toks t f ++ r) = Some (Ct [t ^^ "Flags"; f] [], r).
Proof.
  intros H. unfold flag_toks. cbn [app].
  assert (Q : qrest (S (S m)) (Sy Colons :: Id f :: r) = Some ([f], r)).
  { change (qrest (S (S m)) (Sy Colons :: Id f :: r)) with
      (match qrest (S m) r with Some (q, r2) => Some (f :: q, r2) | None => None end).
    rewrite qrest_stop by (destruct r as [|[?|?|?|[]|?] r]; try reflexivity; discriminate). reflexivity. }
  assert (O : opt Lt r = Some (false, r)) by (destruct r as [|[?|?|?|[]|?] r]; try reflexivity; discriminate).
  change (ptype (S (S m)) (Id (t ^^ "Flags") :: Sy Colons :: Id f :: r)) with
    ((pbind (qname (S (S m))) (fun q => pbind (opt Lt) (fun b : bool => if b then
       pbind (pargs (S m)) (fun a => pbind (need Gt) (fun _ => pret (Ct q a))) else pret (Ct q [])))) (Id (t ^^ "Flags") :: Sy Colons :: Id f :: r)).
  unfold qname, pbind, ident, pret. rewrite Q, O. reflexivity.
Qed.
Lemma palts_flags t : forall l f m r, (length l + 3 <= m)%nat -> after_type r = true ->
  palts m (joined Bar (map (flag_toks t) (f :: l)) ++ r) = Some (map (fun g => Ct [t ^^ "Flags"; g] []) (f :: l), r).
Proof.
  induction l as [|g l IH]; intros f m r Hm A; cbn [length] in Hm; (destruct m as [|m]; [lia|]); (destruct m as [|m]; [lia|]); (destruct m as [|m]; [lia|]).
  - change (joined Bar (map (flag_toks t) [f])) with (flag_toks t f). apply palts_one; [|exact A]. apply ptype_flag.
    destruct r as [|[?|?|?|[]|?] r]; try reflexivity; discriminate.
  - cbn [map]. rewrite joined_cons, <- app_assoc. cbn [app]. change (flag_toks t g :: map (flag_toks t) l) with (map (flag_toks t) (g :: l)).
    pose proof (IH g (S (S m)) r ltac:(lia) A) as E. cbn [palts]. unfold pbind at 1. rewrite ptype_flag by reflexivity.
    unfold pbind at 1. cbn [opt sym_eqb].
    change (pbind (palts (S (S m))) (fun r0 => pret (Ct [t ^^ "Flags"; f] [] :: r0)) (joined Bar (map (flag_toks t) (g :: l)) ++ r)
            = Some (Ct [t ^^ "Flags"; f] [] :: map (fun g0 => Ct [t ^^ "Flags"; g0] []) (g :: l), r)).
    unfold pbind. rewrite E. reflexivity.
Qed.

(** A typedef line. *)
Definition td_groups (t : tdef) : list (list tok * list cty) :=
  map (fun a => (tn_toks a, [tn_type a])) (td_types t) ++
  match td_flags t with [] => [] | l => [(joined Bar (map (flag_toks (td_template t)) l), map (flag_type t) l)] end.
Definition using_toks (t : tdef) : list tok :=
  Kw KUsing :: Id (td_name t) :: Sy Eq :: Id (td_template t) :: Sy Lt :: joined Comma (map fst (td_groups t)) ++ [Sy Gt; Sy Semi].
Lemma tdef_ok_parts t : tdef_ok t = true ->
  ident_ok (td_name t) = true /\ ident_ok (td_template t) = true /\ (forall a, In a (td_types t) -> tn_ok a = true /\ (tn_depth a <= 4)%nat) /\
  (length (td_types t) + length (td_flags t) <= 16)%nat /\ (forall f, In f (td_flags t) -> ident_ok f = true) /\ td_types t <> [].
Proof.
  unfold tdef_ok. rewrite !andb_true_iff, !forallb_forall. intros ((((((A & B) & C) & D) & E) & F) & G).
  split; [exact A|]. split; [exact B|]. split; [intros a i; split; [exact (C a i)|apply Nat.leb_le; exact (D a i)]|].
  split; [apply Nat.leb_le; exact E|]. split; [exact F|]. intros H. rewrite H in G. discriminate.
Qed.
Lemma joined_snoc s l x : l <> [] -> joined s (l ++ [x]) = joined s l ++ Sy s :: x.
Proof.
  induction l as [|a l IH]; [congruence|]. intros _. destruct l as [|b l]; [reflexivity|].
  change ((a :: b :: l) ++ [x]) with (a :: b :: (l ++ [x])). rewrite !joined_cons.
  change (b :: (l ++ [x])) with ((b :: l) ++ [x]). rewrite IH by discriminate. rewrite <- app_assoc. reflexivity.
Qed.
Lemma using_tokens t : tdef_ok t = true -> tokens [declaration (template_of t)] = using_toks t.
Proof.
  intros H. destruct (tdef_ok_parts t H) as (H1 & H2 & H3 & H4 & H5 & H6).
  unfold tokens. cbn [map].
  assert (E : lex_line (declaration (template_of t)) = using_toks t).
  { unfold declaration, template_of, lex_line. cbn [t_name t_template t_types t_flags].
    pose proof (good_ident _ H1) as G1. pose proof (good_ident _ H2) as G2.
    rewrite (lx_run true MNone "            using " _ [Kw KUsing] MNone) by (try reflexivity; intros _; apply ident_starts; exact H1).
    unfold using_toks. cbn [app]. f_equal.
    rewrite lx_word by (try reflexivity; rewrite (ident_word _ H1); exact G1). rewrite (ident_word _ H1). f_equal.
    rewrite (lx_run true MNone " = " _ [Sy Eq] MNone) by (try reflexivity; intros _; apply ident_starts; exact H2). cbn [app]. f_equal.
    rewrite lx_word by (try reflexivity; rewrite (ident_word _ H2); exact G2). rewrite (ident_word _ H2). f_equal.
    change ("<" ^^ ?x) with (String "<" x).
    rewrite lone_lx by reflexivity. change (sym1 "<") with (Sy Lt). f_equal.
    destruct (td_types t) as [|a l] eqn:Et; [congruence|].
    unfold td_groups. rewrite Et. rewrite map_app, map_map. cbn [fst].
    destruct (td_flags t) as [|f fl] eqn:Ef.
    - cbn [append]. rewrite types_lx by (try reflexivity; intros b i; apply (H3 b i)).
      cbn [map app]. rewrite app_nil_r. reflexivity.
    - cbn [map]. cbv iota. cbn [append]. change (tn_text a :: map tn_text l) with (map tn_text (a :: l)).
      rewrite types_lx by (try reflexivity; intros b i; apply (H3 b i)).
      change (tn_toks a :: map (fun x => tn_toks x) l) with (map tn_toks (a :: l)).
      rewrite joined_snoc by discriminate. rewrite <- !app_assoc. f_equal. 
      rewrite lone_lx by reflexivity. cbn [app]. f_equal.
      rewrite flags_lx by (try reflexivity; try exact H2; intros g i; apply H5; rewrite ?Ef; exact i). reflexivity. }
  rewrite E. unfold using_toks at 1. cbn [filter is_directive negb concat]. rewrite app_nil_r. reflexivity.
Qed.
Lemma using_item n t : tdef_ok t = true -> dparses n (using_toks t) [IUsing (td_name t) (tdef_type t)].
Proof.
  intros H. destruct (tdef_ok_parts t H) as (H1 & H2 & H3 & H4 & H5 & H6).
  apply dparses_one; [discriminate|]. intros rest. cbn [app]. rewrite <- app_assoc. cbn [app].
  change (pnest (S n)) with (pdecl (fun l => pdecls (pnest n) (List.length l) l)).
  unfold pdecl, pbind. cbn [ident need sym_eqb]. change depth with (S 39). rewrite ptype_args.
  rewrite (pargs_groups 18).
  - cbn [need sym_eqb]. unfold pret, tdef_type, td_groups. rewrite map_app, map_map. cbn [snd].
    destruct (td_flags t); reflexivity.
  - unfold td_groups. destruct (td_types t); [congruence|discriminate].
  - intros g i m r Hm A. unfold td_groups in i. apply in_app_iff in i. destruct i as [i|i].
    + apply in_map_iff in i. destruct i as (a & <- & ia). cbn [fst snd]. destruct m as [|m]; [lia|].
      destruct (H3 a ia) as [K D]. apply palts_one; [|exact A].
      replace m with (S (4 * tn_depth a) + (m - S (4 * tn_depth a)))%nat by lia. apply tn_parse; assumption.
    + destruct (td_flags t) as [|f l] eqn:Ef; [destruct i|]. destruct i as [<-|[]]. cbn [fst snd length] in *.
      apply palts_flags; [|exact A]. destruct (td_types t); [congruence|]. cbn [length] in H4. lia.
  - unfold td_groups. rewrite app_length, map_length. destruct (td_flags t); cbn [length] in *; lia.
Qed.

(** ** The header *)
Definition is_bool (v : variable) : bool := streqb (v_type v) "bool" && match container v with CtNone => true | _ => false end.
Definition vrty (v : variable) : rty := if is_bool v then RBool else RType (vtype v).
Definition field_item (v : variable) : item := IField (vtype v) ("v_" ^^ v_name v) (is_simple_base v).
Definition accessor_item (c : bool) (v : variable) : item :=
  IFun (Some (c, vrty v, ByRef)) (FName [v_name v]) [] c (BCode (blk [SReturn (Some (EArrow EThis ("v_" ^^ v_name v)))])).
Definition op_decls (n : string) : list item :=
  [ IForward "MF"; IFriend "MF";
    IFun None (FName [n]) [] false BDefault;
    IFun None (FName [n]) [Par true (ct n) ByRef "rval"] false BDecl;
    IFun (Some (false, RType (ct n), ByRef)) (FOper [] Eq) [Par true (ct n) ByRef "rval"] false BDecl;
    IFun None (FName [n]) [Par false (ct n) ByMove "rval"] false BDefault;
    IFun (Some (false, RType (ct n), ByRef)) (FOper [] Eq) [Par false (ct n) ByMove "rval"] false BDefault;
    IFun None (FDtor n) [] false BDefault;
    IFun (Some (false, RBool, ByValue)) (FOper [] EqEq) [Par true (ct n) ByRef "rval"] true BDecl;
    IFun (Some (false, RBool, ByValue)) (FOper [] BangEq) [Par true (ct n) ByRef "rval"] true BDecl;
    IProtected ].
Definition body_items (d : edef) : list item :=
  [IPublic] ++ map (fun t => IUsing (td_name t) (tdef_type t)) (ed_templates d) ++ op_decls (ed_name d)
  ++ flat_map (fun v => [field_item v]) (ed_vars d) ++ [IPublic]
  ++ flat_map (fun v => [accessor_item true v; accessor_item false v]) (ed_vars d).
Definition mf_decls (n : string) : list item :=
  [ IPublic;
    IFun (Some (false, RVoid, ByValue)) (FName ["Clear"]) [Par false (ct n) ByRef "obj"] false BDecl;
    IFun (Some (false, RVoid, ByValue)) (FName ["DeepCopy"]) [Par false (ct n) ByRef "dest"; Par true (ct n) ByPtr "source"] false BDecl;
    IFun (Some (false, RBool, ByValue)) (FName ["Equals"]) [Par true (ct n) ByPtr "lvar"; Par true (ct n) ByPtr "rvar"] false BDecl;
    IFun (Some (false, RBool, ByValue)) (FName ["Write"]) [Par true (ct n) ByRef "obj"; Par false (ct "EntityWriter") ByRef "writer"] false BDecl;
    IFun (Some (false, RBool, ByValue)) (FName ["Read"]) [Par false (ct n) ByRef "obj"; Par false (ct "EntityReader") ByRef "reader"] false BDecl;
    IFun (Some (false, RBool, ByValue)) (FName ["Validate"]) [Par true (ct n) ByRef "obj"; Par false (ct "EntityValidator") ByRef "validator"] false BDecl ].
Definition copy_this : stmt := SExpr (ECall (EId ["MF"; "DeepCopy"]) [EDeref EThis; EAddr (EId ["rval"])]).
Definition equals_this : expr := ECall (EId ["MF"; "Equals"]) [EThis; EAddr (EId ["rval"])].
Definition inline_items (n : string) : list item :=
  [ IFun None (FName [n; n]) [Par true (ct n) ByRef "rval"] false (BCode (blk [copy_this]));
    IFun (Some (false, RType (ct n), ByRef)) (FOper [n] Eq) [Par true (ct n) ByRef "rval"] false (BCode (blk [copy_this; SReturn (Some (EDeref EThis))]));
    IFun (Some (false, RBool, ByValue)) (FOper [n] EqEq) [Par true (ct n) ByRef "rval"] true (BCode (blk [SReturn (Some equals_this)]));
    IFun (Some (false, RBool, ByValue)) (FOper [n] BangEq) [Par true (ct n) ByRef "rval"] true (BCode (blk [SReturn (Some (ENot equals_this))])) ].
Definition header_items (d : edef) : list item :=
  map IForward (map d_name (filter (fun p => negb (d_include p)) (ed_deps d)))
  ++ IClass [ed_name d] (body_items d) :: [IForward "EntityWriter"; IForward "EntityReader"; IForward "EntityValidator"]
  ++ IClass [ed_name d; "MF"] (mf_decls (ed_name d)) :: inline_items (ed_name d).

(** One declaration after the other. *)
Ltac dstep :=
  match goal with
  | |- dparses ?n (?t :: ?l) (?i :: ?is) =>
    let v := eval vm_compute in (pnest 3 (t :: l)) in
    lazymatch v with
    | Some (_, ?r) =>
      let rec go acc l := lazymatch l with r => acc | ?x :: ?l' => let a := go acc l' in constr:(x :: a) | _ => acc end in
      let us := go (@nil tok) l in
      change (t :: l) with (t :: us ++ r); apply (dparses_cons n t us i r is); [discriminate | intros rest; reflexivity |]
    end
  end.
Ltac dlex := unfold tokens; cbn [map app]; lex_all;
  match goal with |- dparses _ ?ts _ => let t := eval vm_compute in ts in change ts with t end.
Ltac dparse := repeat dstep; apply dparses_nil.

Lemma ops_parse n e : good e (Id e) ->
  dparses n (tokens [ "            class MF;"; "            friend MF;"; "";
       "            " ^^ e ^^ "() = default;";
       "            " ^^ e ^^ "( const " ^^ e ^^ " &rval );";
       "            " ^^ e ^^ " &operator=( const " ^^ e ^^ " &rval );";
       "            " ^^ e ^^ "( " ^^ e ^^ " &&rval ) = default;";
       "            " ^^ e ^^ " &operator=( " ^^ e ^^ " &&rval ) = default;";
       "            ~" ^^ e ^^ "() = default;";
       "";
       "            // value compare operators";
       "            bool operator==( const " ^^ e ^^ " &rval ) const;";
       "            bool operator!=( const " ^^ e ^^ " &rval ) const;";
       "";
       "        protected:" ]) (op_decls e).
Proof. intros He. unfold op_decls. dlex. dparse. Qed.
Lemma is_bool_id v : word (v_type v) = Id (v_type v) -> is_bool v = false.
Proof.
  intros E. unfold is_bool. destruct (streqb (v_type v) "bool") eqn:B; [|reflexivity].
  apply String.eqb_eq in B. rewrite B in E. discriminate.
Qed.
Lemma simple_base v : variable_ok v = true -> is_simple_base v = is_base v && match container v with CtNone => true | _ => false end.
Proof.
  unfold is_simple_base, is_simple, variable_ok, container. intros K. f_equal.
  destruct (v_optional v), (v_vector v), (v_indexed v); try reflexivity; discriminate K.
Qed.
Lemma field_parses n v : vgood v -> variable_ok v = true -> dparses n (tokens (header_member v)) [field_item v].
Proof.
  intros [Hn Ht Hw] K. unfold header_member, field_item. rewrite (simple_base v K).
  destruct Hw as [E|E].
  - rewrite E in Ht. rewrite (type_string_cases v K). unfold vtype.
    destruct (is_base v); cbn [andb]; destruct (container v); rewrite ?app_assoc_s; dlex; dparse.
  - assert (Hb : good (v_type v) (Kw KBool)) by (rewrite E in Ht |- *; exact Ht). clear Ht.
    rewrite (bool_base v E). rewrite (type_string_cases v K). unfold vtype. cbn [andb].
    destruct (container v); rewrite ?app_assoc_s; dlex; rewrite E; dparse.
Qed.
Lemma accessor_parses n v : vgood v -> variable_ok v = true -> dparses n (tokens (header_accessor v)) [accessor_item true v; accessor_item false v].
Proof.
  intros [Hn Ht Hw] K. unfold header_accessor, accessor_item, vrty.
  destruct Hw as [E|E].
  - rewrite (is_bool_id v E). rewrite E in Ht. rewrite (type_string_cases v K). unfold vtype.
    destruct (container v); rewrite ?app_assoc_s; dlex; dparse.
  - assert (Hb : good (v_type v) (Kw KBool)) by (rewrite E in Ht |- *; exact Ht). clear Ht.
    unfold is_bool. rewrite (type_string_cases v K). unfold vtype.
    destruct (container v); rewrite ?app_assoc_s; dlex; rewrite E; cbn [andb streqb String.eqb Ascii.eqb Bool.eqb]; dparse.
Qed.
Section Header.
Context (d : edef) (He : good (ed_name d) (Id (ed_name d))).
Context (Hv : forall v, In v (ed_vars d) -> vgood v /\ variable_ok v = true).
Context (Hd : forall p, In p (ed_deps d) -> good (d_name p) (Id (d_name p))).
Context (Ht : forall t, In t (ed_templates d) -> tdef_ok t = true).

Lemma usings_parse n :
  dparses n (tokens (match e_templates (entity_of d) with [] => [] | _ => (map declaration (e_templates (entity_of d)) ++ [""]) end))
    (map (fun t => IUsing (td_name t) (tdef_type t)) (ed_templates d)).
Proof.
  cbn [e_templates entity_of].
  assert (E : tokens (match map template_of (ed_templates d) with [] => [] | _ => (map declaration (map template_of (ed_templates d)) ++ [""]) end)
    = flat_map (fun t => tokens [declaration (template_of t)]) (ed_templates d)).
  { transitivity (tokens (map declaration (map template_of (ed_templates d)) ++ [""])); [destruct (ed_templates d); reflexivity|].
    rewrite tokens_app. change (tokens [""]) with (@nil tok). rewrite app_nil_r. clear Ht. generalize (ed_templates d).
    induction l as [|t l IH]; [reflexivity|]. cbn [map flat_map].
    change (declaration (template_of t) :: map declaration (map template_of l)) with ([declaration (template_of t)] ++ map declaration (map template_of l)).
    rewrite tokens_app. f_equal. exact IH. }
  rewrite E.
  replace (map (fun t => IUsing (td_name t) (tdef_type t)) (ed_templates d)) with (flat_map (fun t => [IUsing (td_name t) (tdef_type t)]) (ed_templates d))
    by (generalize (ed_templates d); induction l as [|t l IH]; [reflexivity|]; cbn; f_equal; exact IH).
  apply dparses_flat. intros t i. rewrite using_tokens by exact (Ht t i). apply using_item. exact (Ht t i).
Qed.
Lemma forwards_parse n :
  dparses n (tokens (flat_map (fun p => if d_include p then [] else ["    class " ^^ d_name p ^^ ";"]) (ed_deps d)))
    (map IForward (map d_name (filter (fun p => negb (d_include p)) (ed_deps d)))).
Proof.
  rewrite tokens_flat.
  replace (map IForward (map d_name (filter (fun p => negb (d_include p)) (ed_deps d))))
    with (flat_map (fun p => if d_include p then [] else [IForward (d_name p)]) (ed_deps d)).
  2:{ generalize (ed_deps d). induction l as [|p l IH]; [reflexivity|]. cbn [flat_map filter]. rewrite IH. destruct (d_include p); reflexivity. }
  apply dparses_flat. intros p i. destruct (d_include p); [apply dparses_nil|]. pose proof (Hd p i) as G. dlex. dparse.
Qed.
Lemma mf_parse n :
  dparses n (tokens ["        public:";
       "            static void Clear( " ^^ ed_name d ^^ " &obj );";
       "            static void DeepCopy( " ^^ ed_name d ^^ " &dest, const " ^^ ed_name d ^^ " *source );";
       "            static bool Equals( const " ^^ ed_name d ^^ " *lvar, const " ^^ ed_name d ^^ " *rvar );";
       "";
       "            static bool Write( const " ^^ ed_name d ^^ " &obj, EntityWriter &writer );";
       "            static bool Read( " ^^ ed_name d ^^ " &obj, EntityReader &reader );";
       "";
       "            static bool Validate( const " ^^ ed_name d ^^ " &obj, EntityValidator &validator );"]) (mf_decls (ed_name d)).
Proof. unfold mf_decls. dlex. dparse. Qed.
Lemma inline_parse :
  dparses 39 (tokens [ "    inline " ^^ ed_name d ^^ "::" ^^ ed_name d ^^ "( const " ^^ ed_name d ^^ " &rval )"; "        {";
       "        MF::DeepCopy( *this , &rval );"; "        }"; "";
       "    inline " ^^ ed_name d ^^ " &" ^^ ed_name d ^^ "::operator=( const " ^^ ed_name d ^^ " &rval )"; "        {";
       "        MF::DeepCopy( *this , &rval );"; "        return *this;"; "        }"; "";
       "    inline bool " ^^ ed_name d ^^ "::operator==( const " ^^ ed_name d ^^ " &rval ) const"; "        {";
       "        return MF::Equals( this, &rval );"; "        }"; "";
       "    inline bool " ^^ ed_name d ^^ "::operator!=( const " ^^ ed_name d ^^ " &rval ) const"; "        {";
       "        return !(MF::Equals( this, &rval ));"; "        }"; ""]) (inline_items (ed_name d)).
Proof. unfold inline_items. dlex. dparse. Qed.

Lemma class_parses : dparses 39
  (tokens [ "    class " ^^ ed_name d; "        {"; "        public:" ]
   ++ tokens (match e_templates (entity_of d) with [] => [] | _ => (map declaration (e_templates (entity_of d)) ++ [""]) end)
   ++ tokens [ "            class MF;"; "            friend MF;"; "";
       "            " ^^ ed_name d ^^ "() = default;";
       "            " ^^ ed_name d ^^ "( const " ^^ ed_name d ^^ " &rval );";
       "            " ^^ ed_name d ^^ " &operator=( const " ^^ ed_name d ^^ " &rval );";
       "            " ^^ ed_name d ^^ "( " ^^ ed_name d ^^ " &&rval ) = default;";
       "            " ^^ ed_name d ^^ " &operator=( " ^^ ed_name d ^^ " &&rval ) = default;";
       "            ~" ^^ ed_name d ^^ "() = default;";
       "";
       "            // value compare operators";
       "            bool operator==( const " ^^ ed_name d ^^ " &rval ) const;";
       "            bool operator!=( const " ^^ ed_name d ^^ " &rval ) const;";
       "";
       "        protected:" ]
   ++ tokens (flat_map header_member (ed_vars d))
   ++ tokens [ ""; "        public:" ]
   ++ tokens (flat_map header_accessor (ed_vars d))
   ++ tokens [ "        };"; "" ]) [IClass [ed_name d] (body_items d)].
Proof.
  assert (E : tokens [ "    class " ^^ ed_name d; "        {"; "        public:" ] = [Kw KClass; Id (ed_name d); Sy LBrace] ++ [Kw KPublic; Sy Colon]).
  { unfold tokens. cbn [map]. lex_all. reflexivity. }
  rewrite E. change (tokens [ "        };"; "" ]) with [Sy RBrace; Sy Semi].
  assert (D : dparses 38 ([Kw KPublic; Sy Colon] ++
    tokens (match e_templates (entity_of d) with [] => [] | _ => (map declaration (e_templates (entity_of d)) ++ [""]) end) ++
    tokens [ "            class MF;"; "            friend MF;"; "";
       "            " ^^ ed_name d ^^ "() = default;";
       "            " ^^ ed_name d ^^ "( const " ^^ ed_name d ^^ " &rval );";
       "            " ^^ ed_name d ^^ " &operator=( const " ^^ ed_name d ^^ " &rval );";
       "            " ^^ ed_name d ^^ "( " ^^ ed_name d ^^ " &&rval ) = default;";
       "            " ^^ ed_name d ^^ " &operator=( " ^^ ed_name d ^^ " &&rval ) = default;";
       "            ~" ^^ ed_name d ^^ "() = default;";
       "";
       "            // value compare operators";
       "            bool operator==( const " ^^ ed_name d ^^ " &rval ) const;";
       "            bool operator!=( const " ^^ ed_name d ^^ " &rval ) const;";
       "";
       "        protected:" ] ++
    tokens (flat_map header_member (ed_vars d)) ++ tokens [ ""; "        public:" ] ++
    tokens (flat_map header_accessor (ed_vars d))) (body_items d)).
  { unfold body_items. apply (dparses_app 38 _ [_]); [dparse|]. apply dparses_app; [apply usings_parse|].
    apply dparses_app; [apply ops_parse; exact He|].
    apply dparses_app; [rewrite tokens_flat; apply dparses_flat; intros v i; destruct (Hv v i); apply field_parses; assumption|].
    apply (dparses_app 38 _ [_]); [dlex; dparse|].
    rewrite tokens_flat. apply dparses_flat. intros v i. destruct (Hv v i). apply accessor_parses; assumption. }
  match type of D with dparses _ ?ts _ => set (X := ts) in D end.
  match goal with |- dparses _ ?ts _ => replace ts with (Kw KClass :: [Id (ed_name d); Sy LBrace] ++ X ++ [Sy RBrace; Sy Semi]) end.
  - apply dparses_one; [discriminate|]. intros rest. rewrite <- !app_assoc. cbn [app]. apply (class_item 38). exact D.
  - unfold X. rewrite <- !app_assoc. reflexivity.
Qed.
Lemma header_parses : parse (header_lines (entity_of d)) = Some ("ISD", header_items d).
Proof.
  unfold parse, header_lines. cbn [e_name entity_of e_deps e_variables].
  match goal with |- context [flat_map header_accessor (ed_vars d) ++ ?l] =>
    change l with ([ "        };"; "" ] ++ [ "    class EntityWriter;"; "    class EntityReader;"; "    class EntityValidator;"; "" ]
      ++ ["    class " ^^ ed_name d ^^ "::MF"; "        {"] ++
      ["        public:";
       "            static void Clear( " ^^ ed_name d ^^ " &obj );";
       "            static void DeepCopy( " ^^ ed_name d ^^ " &dest, const " ^^ ed_name d ^^ " *source );";
       "            static bool Equals( const " ^^ ed_name d ^^ " *lvar, const " ^^ ed_name d ^^ " *rvar );";
       "";
       "            static bool Write( const " ^^ ed_name d ^^ " &obj, EntityWriter &writer );";
       "            static bool Read( " ^^ ed_name d ^^ " &obj, EntityReader &reader );";
       "";
       "            static bool Validate( const " ^^ ed_name d ^^ " &obj, EntityValidator &validator );"] ++ ["        };"; ""] ++
      [ "    inline " ^^ ed_name d ^^ "::" ^^ ed_name d ^^ "( const " ^^ ed_name d ^^ " &rval )"; "        {";
       "        MF::DeepCopy( *this , &rval );"; "        }"; "";
       "    inline " ^^ ed_name d ^^ " &" ^^ ed_name d ^^ "::operator=( const " ^^ ed_name d ^^ " &rval )"; "        {";
       "        MF::DeepCopy( *this , &rval );"; "        return *this;"; "        }"; "";
       "    inline bool " ^^ ed_name d ^^ "::operator==( const " ^^ ed_name d ^^ " &rval ) const"; "        {";
       "        return MF::Equals( this, &rval );"; "        }"; "";
       "    inline bool " ^^ ed_name d ^^ "::operator!=( const " ^^ ed_name d ^^ " &rval ) const"; "        {";
       "        return !(MF::Equals( this, &rval ));"; "        }"; ""] ++ ["    };"]) end.
  rewrite !tokens_app.
  assert (I0 : tokens [ "// ISD Copyright (c) 2021 Ulrik Lindahl";
    "// Licensed under the MIT license https://github.com/Cooolrik/ISD/blob/main/LICENSE";
    ""; "#pragma once"; ""; "#include " ^^ dq ^^ "ISD_Types.h" ^^ dq ] = []) by reflexivity.
  rewrite I0.
  assert (I1 : tokens (flat_map (fun p => if d_include p then ["#include " ^^ dq ^^ "ISD_" ^^ d_name p ^^ ".h" ^^ dq] else []) (ed_deps d)) = []).
  { pose proof (deps_lines (entity_of d) true) as L. cbv iota in L. cbn [e_deps entity_of] in L. rewrite L.
    apply include_lines_tokens. intros n i. apply in_map_iff in i. destruct i as (p & <- & i). apply filter_In in i.
    exact (good_noquote _ _ (Hd p (proj1 i))). }
  rewrite I1. change (tokens [""; "namespace ISD"; "    {"]) with [Kw KNamespace; Id "ISD"; Sy LBrace]. cbn [app]. unfold pfile.
  match goal with |- context [pdecls _ _ ?l] => set (ts := l) end.
  change (tokens ["    };"]) with [Sy RBrace; Sy Semi] in ts. change (tokens ["        };"; ""]) with [Sy RBrace; Sy Semi] in ts.
  assert (D : exists us, ts = us ++ [Sy RBrace; Sy Semi] /\ dparses 39 us (header_items d)).
  { unfold header_items. eexists. split; cycle 1.
    - eapply dparses_app; [apply forwards_parse|]. eapply (dparses_app 39 _ [_]); [exact class_parses|].
      eapply (dparses_app 39 (tokens [ "    class EntityWriter;"; "    class EntityReader;"; "    class EntityValidator;"; "" ])); [dlex; dparse|].
      eapply (dparses_app 39 ([Kw KClass; Id (ed_name d); Sy Colons; Id "MF"; Sy LBrace] ++
        tokens ["        public:";
         "            static void Clear( " ^^ ed_name d ^^ " &obj );";
         "            static void DeepCopy( " ^^ ed_name d ^^ " &dest, const " ^^ ed_name d ^^ " *source );";
         "            static bool Equals( const " ^^ ed_name d ^^ " *lvar, const " ^^ ed_name d ^^ " *rvar );";
         "";
         "            static bool Write( const " ^^ ed_name d ^^ " &obj, EntityWriter &writer );";
         "            static bool Read( " ^^ ed_name d ^^ " &obj, EntityReader &reader );";
         "";
         "            static bool Validate( const " ^^ ed_name d ^^ " &obj, EntityValidator &validator );"] ++ [Sy RBrace; Sy Semi]) [_]).
      + apply dparses_one; [discriminate|]. intros rest. do 3 (rewrite <- ?app_assoc; cbn [app]).
        apply (nested_item 38). apply mf_parse.
      + exact inline_parse.
    - unfold ts.
      assert (E : tokens ["    class " ^^ ed_name d ^^ "::MF"; "        {"] = [Kw KClass; Id (ed_name d); Sy Colons; Id "MF"; Sy LBrace])
        by (unfold tokens; cbn [map]; lex_all; reflexivity).
      rewrite E. change (tokens ["        };"; ""]) with [Sy RBrace; Sy Semi]. clear E ts.
      rewrite <- !app_assoc. reflexivity. }
  clearbody ts. destruct D as (us & -> & D). change depth with 40%nat. rewrite (dparses_block 39 us _ [Sy Semi] D). reflexivity.
Qed.
Lemma header_includes : includes (header_lines (entity_of d)) = map file_of ("Types" :: map d_name (filter d_include (ed_deps d))).
Proof.
  unfold header_lines. cbn [e_name entity_of e_deps e_variables]. rewrite !includes_app.
  pose proof (deps_lines (entity_of d) true) as L. cbv iota in L. cbn [e_deps entity_of] in L. rewrite L. clear L.
  rewrite (proj2 (include_lines_tokens (map d_name (filter (fun p => Bool.eqb true (d_include p)) (ed_deps d))) ltac:(
    intros n i; apply in_map_iff in i; destruct i as (p & <- & i); apply filter_In in i; exact (good_noquote _ _ (Hd p (proj1 i)))))).
  assert (Z1 : includes (flat_map header_member (ed_vars d)) = []).
  { rewrite includes_flat. apply flat_map_nil. intros v i. destruct (Hv v i) as [[Hn Hty _] K]. unfold header_member.
    rewrite (type_string_cases v K). destruct (is_simple_base v), (container v); rewrite ?app_assoc_s; plain_lines. }
  assert (Z2 : includes (flat_map header_accessor (ed_vars d)) = []).
  { rewrite includes_flat. apply flat_map_nil. intros v i. destruct (Hv v i) as [[Hn Hty _] K]. unfold header_accessor.
    rewrite (type_string_cases v K). destruct (container v); rewrite ?app_assoc_s; plain_lines. }
  assert (Z3 : includes (flat_map (fun p => if d_include p then [] else ["    class " ^^ d_name p ^^ ";"]) (ed_deps d)) = []).
  { rewrite includes_flat. apply flat_map_nil. intros p i. destruct (d_include p); plain_lines. }
  assert (Z4 : includes (match map template_of (ed_templates d) with [] => [] | _ => (map declaration (map template_of (ed_templates d)) ++ [""]) end) = []).
  { transitivity (includes (map declaration (map template_of (ed_templates d)) ++ [""])); [destruct (ed_templates d); reflexivity|].
    apply plain_includes. rewrite forallb_app. apply andb_true_intro. split; [|reflexivity]. rewrite map_map.
    apply forallb_forall. intros s i. apply in_map_iff in i. destruct i as (t & <- & _). reflexivity. }
  rewrite Z1, Z2, Z3. cbn [e_templates entity_of]. rewrite Z4. cbn [app].
  rewrite (filter_ext _ d_include) by (intros p; destruct (d_include p); reflexivity).
  repeat match goal with |- context [includes ?l] =>
    lazymatch l with
    | (_ :: _ :: _ :: "#pragma once" :: _) => fail
    | _ => let H := fresh in assert (H : includes l = []) by plain_lines; rewrite H; clear H
    end end.
  rewrite !app_nil_r. reflexivity.
Qed.
End Header.
