(** * GenAllFacts: the lines of the generator have no line feeds and carriage returns, and its files have different paths. *)
From Coq Require Import Strings.String Strings.Ascii Strings.HexString.
From Verif Require Import Base Bytes Values Types GenText CppText CppSem GenTextSpec GenRW CppFun GenRWSpec GenTypes GenDyn CppDyn GenDynSpec GenLex GenDynFile
  GenData CppData GenDataSpec GenFiles GenFilesSpec GenFilesFacts GenAll GenAllSpec.
Local Open Scope string_scope.
Local Open Scope list_scope.

(** ** Characters *)
Definition okc (c : ascii) : bool := negb (Ascii.eqb c "010") && negb (Ascii.eqb c "013").
Definition okl (s : string) : bool := all_chars okc s.
Definition okls (l : list string) : bool := forallb okl l.
Lemma chars_app p a b : all_chars p (a ^^ b) = all_chars p a && all_chars p b.
Proof. induction a as [|c a IH]; [reflexivity|]. cbn. rewrite IH, andb_assoc. reflexivity. Qed.
Lemma okl_app a b : okl (a ^^ b) = okl a && okl b.
Proof. apply chars_app. Qed.
Lemma okls_app a b : okls (a ++ b) = okls a && okls b.
Proof. apply forallb_app. Qed.
Lemma okls_cons a b : okls (a :: b) = okl a && okls b.
Proof. reflexivity. Qed.
Lemma okls_flat {A} (f : A -> list string) l : (forall x, In x l -> okls (f x) = true) -> okls (flat_map f l) = true.
Proof.
  induction l as [|x l IH]; intros H; [reflexivity|]. cbn [flat_map]. rewrite okls_app, H by (left; reflexivity). apply IH. intros y i. apply H. right. exact i.
Qed.
Lemma okls_map {A} (f : A -> string) l : (forall x, In x l -> okl (f x) = true) -> okls (map f l) = true.
Proof.
  induction l as [|x l IH]; intros H; [reflexivity|]. cbn [map]. rewrite okls_cons, H by (left; reflexivity). apply IH. intros y i. apply H. right. exact i.
Qed.
Lemma id_okc c : id_char c = true -> okc c = true.
Proof. destruct c as [[] [] [] [] [] [] [] []]; reflexivity || (intros H; discriminate H). Qed.
Lemma id_okl s : all_chars id_char s = true -> okl s = true.
Proof.
  unfold okl. induction s as [|c s IH]; [reflexivity|]. cbn [all_chars]. rewrite !andb_true_iff. intros [A B]. split; [exact (id_okc c A)|exact (IH B)].
Qed.
Lemma ident_chars s : ident_ok s = true -> all_chars id_char s = true.
Proof. unfold ident_ok. rewrite !andb_true_iff. tauto. Qed.
Lemma word_chars s : In s type_words -> all_chars id_char s = true.
Proof. intros i. repeat (destruct i as [<-|i]; [reflexivity|]). destruct i. Qed.
Lemma type_chars s : type_ok s = true -> all_chars id_char s = true.
Proof.
  unfold type_ok. rewrite orb_true_iff. intros [H|H]; [exact (ident_chars s H)|]. destruct (base_type_variant s) as [t|] eqn:E; [|discriminate H]. clear H.
  unfold base_type_variant in E. assert (G : forall l, forallb (fun p => all_chars id_char (fst p)) l = true -> assoc s l = Some t -> all_chars id_char s = true).
  { clear E. induction l as [|[m u] l IH]; [discriminate|]. cbn [forallb fst assoc]. rewrite andb_true_iff. intros [A B].
    destruct (String.eqb s m) eqn:Q; [|exact (IH B)]. apply String.eqb_eq in Q. subst m. intros _. exact A. }
  refine (G type_names _ E). vm_compute. reflexivity.
Qed.

(** Splits lines into pieces; names are known to be fine. *)
Ltac pieces :=
  repeat first
    [ reflexivity | assumption
    | rewrite okls_app; apply andb_true_intro; split
    | rewrite okls_cons; apply andb_true_intro; split
    | rewrite okl_app; apply andb_true_intro; split ].

(** ** Writer and reader *)
Section Lists.
Context (l : list base_type) (P : proper l).
Lemma in_entries b v : In b l -> In v (bt_variants b) -> In (b, v) (GenRWSpec.entries l).
Proof. intros i j. unfold GenRWSpec.entries. apply in_flat_map. exists b. split; [exact i|]. apply in_map. exact j. Qed.
Lemma name_chars n : name_ok n -> okl n = true.
Proof. intros [[H|H] _]; apply id_okl; [exact (ident_chars n H)|exact (word_chars n H)]. Qed.
Lemma impl_ok b v : In b l -> In v (bt_variants b) -> okl (vr_impl v) = true.
Proof. intros i j. apply name_chars. destruct P as (_ & Q & _). exact (Q (b, v) (in_entries b v i j)). Qed.
Lemma base_ok b : In b l -> okl (bt_name b) = true.
Proof. intros i. apply id_okl. apply P. exact i. Qed.
Lemma item_ok b v : In b l -> In v (bt_variants b) -> vr_override v = true -> okl (vr_item v) = true.
Proof.
  intros i j o. destruct P as (_ & Q & _ & S). destruct (S (vr_impl v) (vr_item v)) as (t & e & E1 & E2 & E3 & E4).
  { exists (b, v). split; [exact (in_entries b v i j)|]. auto. }
  rewrite <- E2. apply name_chars. exact (Q e E1).
Qed.
Lemma w_variant_ok b v : In b l -> In v (bt_variants b) -> okls (w_variant b v) = true.
Proof.
  intros i j. pose proof (impl_ok b v i j) as A. pose proof (base_ok b i) as B. pose proof (item_ok b v i j) as C. unfold w_variant.
  destruct (vr_override v); [specialize (C eq_refl)|].
  - unfold w_over_none, w_over_opt, w_over_vec, w_over_optvec, w_over_idx, w_over_optidx. pieces.
  - unfold w_plain_none, w_plain_opt, w_plain_vec, w_plain_optvec, w_plain_idx, w_plain_optidx. pieces.
Qed.
Lemma r_variant_ok b v : In b l -> In v (bt_variants b) -> okls (r_variant b v) = true.
Proof.
  intros i j. pose proof (impl_ok b v i j) as A. pose proof (base_ok b i) as B. pose proof (item_ok b v i j) as C. unfold r_variant.
  destruct (vr_override v); [specialize (C eq_refl)|].
  - unfold r_over_none, r_over_opt, r_over_vec, r_over_optvec, r_over_idx, r_over_optidx. pieces.
  - unfold r_plain_none, r_plain_opt, r_plain_vec, r_plain_optvec, r_plain_idx, r_plain_optidx. pieces.
Qed.
Lemma w_source_ok : okls (w_source l) = true.
Proof. unfold w_source. pieces. apply okls_flat. intros b i. apply okls_flat. intros v j. exact (w_variant_ok b v i j). Qed.
Lemma r_source_ok : okls (r_source l) = true.
Proof. unfold r_source. pieces. apply okls_flat. intros b i. apply okls_flat. intros v j. exact (r_variant_ok b v i j). Qed.
Lemma w_header_ok : okls (w_header l) = true.
Proof.
  unfold w_header. pieces; apply okls_flat; intros b i; cbv zeta; pose proof (base_ok b i) as B; pieces; apply okls_flat; intros v j; pose proof (impl_ok b v i j) as A;
    unfold w_decl, w_decl_array; pieces.
Qed.
Lemma r_header_ok : okls (r_header l) = true.
Proof.
  unfold r_header. pieces; apply okls_flat; intros b i; cbv zeta; pose proof (base_ok b i) as B; pieces; apply okls_flat; intros v j; pose proof (impl_ok b v i j) as A;
    unfold r_decl, r_decl_array; pieces.
Qed.

(** ** Data types, combined types, dynamic types, tests *)
Lemma ct_ok c : okl (ct_name c) = true.
Proof. destruct c; reflexivity. Qed.
Lemma combo_ok T c : okl T = true -> okl (combo T c) = true.
Proof. intros A. destruct c; cbn [combo is_template ct_name]; pieces. Qed.
Lemma combos_ok f : (forall T c, okl T = true -> okls (f T c) = true) -> okls (for_all_combos l f) = true.
Proof.
  intros F. unfold for_all_combos. apply okls_flat. intros b i. apply okls_flat. intros v j. apply okls_flat. intros k _. apply F. exact (impl_ok b v i j).
Qed.
Lemma comb_header_ok : okls (comb_header l) = true.
Proof. unfold comb_header. pieces. apply combos_ok. intros T c A. pose proof (combo_ok T c A) as B. pose proof (ct_ok c) as C. unfold comb_info. pieces. Qed.
Lemma comb_source_ok : okls (comb_source l) = true.
Proof. unfold comb_source. pieces. apply combos_ok. intros T c A. pose proof (combo_ok T c A) as B. destruct c; unfold comb_clear; pieces. Qed.

Lemma numbered_variants {A} (Q : A -> Prop) b v (vs : list A) : Forall Q vs -> Forall (fun x => Q (snd x)) (number_variants b v vs).
Proof. revert v. induction vs as [|x vs IH]; intros v H; cbn [number_variants]; constructor; inversion H; subst; auto. Qed.
Lemma numbered_types {A} (Q : A -> Prop) b (ts : list (list A)) : Forall (Forall Q) ts -> Forall (fun x => Q (snd x)) (number_types b ts).
Proof.
  revert b. induction ts as [|vs ts IH]; intros b H; cbn [number_types]; [constructor|]. inversion H; subst. apply Forall_app. split; [apply numbered_variants; assumption|].
  apply IH. assumption.
Qed.
Lemma lists_ok : Forall (Forall (fun T => okl T = true)) (type_lists l).
Proof.
  unfold type_lists. apply Forall_forall. intros vs i. apply in_map_iff in i. destruct i as (b & <- & i). apply Forall_forall. intros T j.
  apply in_map_iff in j. destruct j as (v & <- & j). exact (impl_ok b v i j).
Qed.
Lemma hex_ok n : okl (HexString.of_N n) = true.
Proof.
  apply id_okl. destruct n as [|p]; [reflexivity|]. unfold HexString.of_N, HexString.of_pos. cbn [all_chars]. rewrite (proj2 (hex_pos p "")). reflexivity.
Qed.
Lemma enum_ok : okls (enum_text l) = true.
Proof.
  unfold enum_text. pieces. apply okls_map. intros x i. pose proof (numbered_types _ 0%N _ lists_ok) as F. rewrite Forall_forall in F. specialize (F x i).
  pose proof (hex_ok (fst x)) as H. unfold enum_line. pieces.
Qed.
Lemma data_header_ok : okls (data_header l) = true.
Proof.
  unfold data_header. repeat (rewrite okls_app; apply andb_true_intro; split); try exact enum_ok; vm_compute; reflexivity.
Qed.
Definition slot_ok (x : option (entry string ctype)) : Prop := match x with None => True | Some e => okl (en_variant e) = true end.
Lemma gset_ok n x tab : slot_ok (Some x) -> Forall slot_ok tab -> Forall slot_ok (gset n x tab).
Proof. intros H. revert n. induction tab as [|y tab IH]; intros n F; [destruct n; constructor|]. inversion F; subst. destruct n; cbn [gset]; constructor; auto. Qed.
Lemma ginsert_ok size x n : forall i tab tab', slot_ok (Some x) -> Forall slot_ok tab -> ginsert_at size n i x tab = Some tab' -> Forall slot_ok tab'.
Proof.
  induction n as [|n IH]; intros i tab tab' H F E; cbn [ginsert_at] in E; destruct (gslot tab i) as [[y|]|]; try discriminate E;
    try (injection E as <-; exact (gset_ok _ _ _ H F)). exact (IH _ _ _ H F E).
Qed.
Lemma gfill_ok size m1 m2 n es : forall tab tab', Forall (fun e => slot_ok (Some e)) es -> Forall slot_ok tab -> gfill size m1 m2 n es tab = Some tab' -> Forall slot_ok tab'.
Proof.
  induction es as [|e es IH]; intros tab tab' H F E; cbn [gfill] in E; [injection E as <-; exact F|]. inversion H; subst.
  destruct (ginsert_at size n (py_hash size m1 m2 (en_dt e) (en_ct e)) e tab) as [t|] eqn:G; [|discriminate E].
  exact (IH _ _ H3 (ginsert_ok _ _ _ _ _ _ H2 F G) E).
Qed.
Lemma table_ok n tab : dyn_table n l = Some tab -> Forall slot_ok tab.
Proof.
  unfold dyn_table, gen_table. apply gfill_ok.
  - unfold GenTypes.entries. apply Forall_forall. intros e i. apply in_flat_map in i. destruct i as (x & i & j). apply in_map_iff in j. destruct j as (c & <- & _).
    pose proof (numbered_types _ 0%N _ lists_ok) as F. rewrite Forall_forall in F. exact (F x i).
  - apply Forall_forall. intros x i. apply repeat_spec in i. subst. exact Logic.I.
Qed.
Lemma dyn_source_ok n dyn : dyn_source n l = Some dyn -> okls dyn = true.
Proof.
  unfold dyn_source. destruct (dyn_table n l) as [tab|] eqn:E; [|discriminate]. intros H. injection H as <-. pieces.
  - apply combos_ok. intros T c A. pose proof (combo_ok T c A) as B. pose proof (ct_ok c) as C. unfold dyn_class. pieces.
  - apply okls_map. intros x i. pose proof (table_ok n tab E) as F. rewrite Forall_forall in F. specialize (F x i). destruct x as [e|]; [|reflexivity].
    cbn [slot_ok] in F. pose proof (ct_ok (en_container e)) as C. unfold table_line. pieces.
Qed.
Lemma tests_ok : okls (tests_lines l) = true.
Proof.
  unfold tests_lines. repeat (rewrite okls_app; apply andb_true_intro; split); try (vm_compute; reflexivity).
  apply okls_flat. intros b i. apply okls_map. intros v j. pose proof (impl_ok b v i j) as A. cbv zeta. pieces.
Qed.
End Lists.
Lemma data_source_ok : okls data_source = true.
Proof. vm_compute. reflexivity. Qed.
Lemma pointers_ok : okls pointers_header = true.
Proof. vm_compute. reflexivity. Qed.

(** ** Entities *)
Section Entities.
Context (d : edef) (H : well_formed d).
Lemma ed_name_chars : all_chars id_char (ed_name d) = true.
Proof. apply ident_chars. apply H. Qed.
Lemma vars_ok v : In v (ed_vars d) -> okl (v_name v) = true /\ okl (v_type v) = true.
Proof.
  intros i. destruct H as (_ & _ & _ & A & _). rewrite forallb_forall in A. specialize (A v i). unfold var_ok in A. rewrite !andb_true_iff in A.
  destruct A as (((_ & A) & B) & _). split; apply id_okl; [exact (ident_chars _ A)|exact (type_chars _ B)].
Qed.
Lemma deps_ok p : In p (ed_deps d) -> okl (d_name p) = true.
Proof.
  intros i. destruct H as (_ & _ & _ & _ & _ & _ & A & _). rewrite forallb_forall in A. apply id_okl, ident_chars. exact (A p i).
Qed.
Lemma tn_text_ok t : tn_ok t = true -> okl (tn_text t) = true.
Proof.
  induction t as [s|s a IH|s a IHa b IHb]; cbn [tn_ok tn_text]; rewrite ?andb_true_iff.
  - intros A. apply id_okl, type_chars. exact A.
  - intros [A B]. pose proof (id_okl _ (ident_chars _ A)) as C. specialize (IH B). pieces.
  - intros [[A B] C]. pose proof (id_okl _ (ident_chars _ A)) as D. specialize (IHa B). specialize (IHb C). pieces.
Qed.
Lemma decl_types_ok b ts : forallb tn_ok ts = true -> okl (decl_types b (map tn_text ts)) = true.
Proof.
  revert b. induction ts as [|t ts IH]; intros b; [reflexivity|]. cbn [forallb map decl_types]. rewrite andb_true_iff. intros [A B].
  pose proof (tn_text_ok t A) as C. specialize (IH true B). destruct b; pieces.
Qed.
Lemma decl_flags_ok tem b fl : okl tem = true -> forallb ident_ok fl = true -> okl (decl_flags tem b fl) = true.
Proof.
  intros T. revert b. induction fl as [|f fl IH]; intros b; [reflexivity|]. cbn [forallb decl_flags]. rewrite andb_true_iff. intros [A B].
  pose proof (id_okl _ (ident_chars _ A)) as C. specialize (IH true B). destruct b; pieces.
Qed.
Lemma declaration_ok t : tdef_ok t = true -> okl (declaration (template_of t)) = true.
Proof.
  unfold tdef_ok. rewrite !andb_true_iff. intros ((((((A & B) & C) & _) & _) & D) & _). pose proof (id_okl _ (ident_chars _ A)) as A1. pose proof (id_okl _ (ident_chars _ B)) as B1.
  pose proof (decl_types_ok false _ C) as C1. pose proof (decl_flags_ok _ false _ B1 D) as D1.
  unfold declaration, template_of. cbn [t_name t_template t_types t_flags]. pieces. destruct (td_flags t); [reflexivity|]. destruct (td_types t); cbn [map]; pieces.
Qed.
Lemma type_string_ok v : In v (ed_vars d) -> okl (type_string v) = true.
Proof.
  intros i. destruct (vars_ok v i) as [_ A]. unfold type_string. destruct (v_optional v), (v_vector v), (v_indexed v); pieces.
Qed.
Lemma header_ok : okls (header_lines (entity_of d)) = true.
Proof.
  pose proof (id_okl _ ed_name_chars) as N. unfold header_lines. cbn [entity_of e_name e_deps e_templates e_variables]. cbv zeta.
  repeat (rewrite okls_app; apply andb_true_intro; split); try (pieces; fail).
  - apply okls_flat. intros p i. pose proof (deps_ok p i). destruct (d_include p); pieces.
  - apply okls_flat. intros p i. pose proof (deps_ok p i). destruct (d_include p); pieces.
  - assert (G : okls (map declaration (map template_of (ed_templates d)) ++ [""]) = true).
    { pieces. rewrite map_map. apply okls_map. intros t i. apply declaration_ok. destruct H as (_ & _ & _ & _ & _ & _ & _ & A & _). rewrite forallb_forall in A. exact (A t i). }
    destruct (map template_of (ed_templates d)); [reflexivity|exact G].
  - apply okls_flat. intros v i. destruct (vars_ok v i) as [A B]. pose proof (type_string_ok v i) as C. unfold header_member. destruct (is_simple_base v); pieces.
  - apply okls_flat. intros v i. destruct (vars_ok v i) as [A B]. pose proof (type_string_ok v i) as C. unfold header_accessor. pieces.
Qed.
Lemma source_ok : okls (source_lines (entity_of d)) = true.
Proof.
  pose proof (id_okl _ ed_name_chars) as N. unfold source_lines, source_head, source_clear, source_copy, source_equals, source_write, source_read, source_validate.
  cbn [entity_of e_name e_deps e_templates e_variables].
  repeat (rewrite okls_app; apply andb_true_intro; split); try (pieces; fail).
  - apply okls_flat. intros p i. pose proof (deps_ok p i). destruct (d_include p); pieces.
  - apply okls_flat. intros v i. destruct (vars_ok v i) as [A B]. unfold clear_call. destruct (is_base v), (v_optional v); pieces.
  - apply okls_flat. intros v i. destruct (vars_ok v i) as [A B]. unfold copy_call. destruct (is_base v), (v_optional v); pieces.
  - apply okls_flat. intros v i. destruct (vars_ok v i) as [A B]. unfold equals_call. cbn [e_name]. destruct (is_base v), (v_optional v); pieces.
  - match goal with |- okls (if ?b then _ else _) = true => destruct b; reflexivity end.
  - apply okls_flat. intros v i. destruct (vars_ok v i) as [A B]. pose proof (type_string_ok v i) as C. unfold writer_call. cbn [e_name]. destruct (is_base v), (v_optional v); pieces.
  - match goal with |- okls (if ?b then _ else _) = true => destruct b; reflexivity end.
  - apply okls_flat. intros v i. destruct (vars_ok v i) as [A B]. pose proof (type_string_ok v i) as C. unfold reader_call. cbn [e_name]. destruct (is_base v), (v_optional v); pieces.
  - apply okls_flat. intros v i. destruct (vars_ok v i) as [A B]. unfold validator_call. destruct (is_base v), (v_optional v); pieces.
Qed.
End Entities.

(** ** All lines *)
Definition well (defs : list edef) : Prop := forall d, In d defs -> well_formed d.
Lemma targets_ok l n dyn defs : proper l -> dyn_source n l = Some dyn -> well defs ->
  forall p ls, In (p, ls) (targets l dyn (map entity_of defs)) -> okls ls = true.
Proof.
  intros P E W p ls i. unfold targets in i. apply in_app_or in i. destruct i as [i|i].
  - repeat (destruct i as [i|i];
      [injection i as _ <-;
       first [exact (w_header_ok l P)|exact (w_source_ok l P)|exact (r_header_ok l P)|exact (r_source_ok l P)|exact (data_header_ok l P)|exact data_source_ok|exact pointers_ok
             |exact (comb_header_ok l P)|exact (comb_source_ok l P)|exact (dyn_source_ok l P n dyn E)|exact (tests_ok l P)]|]). destruct i.
  - apply in_flat_map in i. destruct i as (e & i & j). apply in_map_iff in i. destruct i as (d & <- & i). pose proof (W d i) as Wd.
    destruct j as [j|[j|[]]]; injection j as _ <-; [exact (header_ok d Wd)|exact (source_ok d Wd)].
Qed.
Lemma bytes_of_chars s c : In c (list_byte_of_string s) -> exists a, c = byte_of_ascii a /\ (okl s = true -> okc a = true).
Proof.
  unfold list_byte_of_string. induction s as [|a s IH]; [intros []|]. cbn [list_ascii_of_string map]. intros [<-|i].
  - exists a. split; [reflexivity|]. unfold okl. cbn [all_chars]. rewrite andb_true_iff. tauto.
  - destruct (IH i) as (b & E & B). exists b. split; [exact E|]. unfold okl. cbn [all_chars]. rewrite andb_true_iff. intros [_ A]. exact (B A).
Qed.
Lemma okl_bytes s : okl s = true -> ~ In LF (list_byte_of_string s) /\ ~ In CR (list_byte_of_string s).
Proof.
  intros A. split; intros i; destruct (bytes_of_chars s _ i) as (a & E & B); specialize (B A); destruct a as [[] [] [] [] [] [] [] []]; discriminate E || discriminate B.
Qed.

(** ** Reading a file back *)
Lemma cut_text ls cur : (forall x, In x ls -> ~ In LF x) -> ~ In LF cur ->
  forall r, cut_lines (rev cur) (text ls ++ r) = match ls with [] => cut_lines (rev cur) r | x :: y => (cur ++ x) :: y ++ cut_lines [] r end.
Proof.
  revert cur. induction ls as [|x ls IH]; intros cur A B r; [reflexivity|].
  assert (Q : forall x cur z, ~ In LF x -> cut_lines (rev cur) (x ++ LF :: z) = (cur ++ x) :: cut_lines [] z).
  { clear. induction x as [|c x IH]; intros cur z N; cbn [app cut_lines].
    - cbn. rewrite rev_involutive, app_nil_r. reflexivity.
    - assert (E : Byte.eqb c LF = false) by (apply (is_char_ne c LF); intros ->; apply N; left; reflexivity). rewrite E.
      specialize (IH (cur ++ [c]) z (fun i => N (or_intror i))). rewrite rev_app_distr in IH. cbn [rev app] in IH. rewrite IH, <- app_assoc. reflexivity. }
  unfold text. cbn [map List.concat]. rewrite <- !app_assoc. cbn [app]. rewrite Q by (apply A; left; reflexivity). f_equal.
  fold (text ls). destruct ls as [|y ls].
  - reflexivity.
  - specialize (IH [] (fun z i => A z (or_intror i)) (fun i => i) r). cbn [rev app] in IH. exact IH.
Qed.
Lemma seen_lines fs p f ls : fs (list_byte_of_string p) = Some f -> shows f (text (map list_byte_of_string ls)) -> okls ls = true -> seen fs p = ls.
Proof.
  intros E S O. unfold seen. rewrite E. unfold shows in S. rewrite S. rewrite <- (app_nil_r (text _)).
  assert (A : forall x, In x (map list_byte_of_string ls) -> ~ In LF x).
  { intros x i. apply in_map_iff in i. destruct i as (s & <- & i). unfold okls in O. rewrite forallb_forall in O. apply okl_bytes. exact (O s i). }
  pose proof (cut_text _ [] A (fun i => i) []) as C. cbn [rev] in C. rewrite C. destruct ls as [|x ls]; [reflexivity|]. cbn [map app cut_lines].
  rewrite app_nil_r, map_map. f_equal; [apply string_of_list_byte_of_string|]. rewrite <- (map_id ls) at 2. apply map_ext. intros s. apply string_of_list_byte_of_string.
Qed.

(** ** Paths *)
Lemma app_inj_l a b c : a ^^ b = a ^^ c -> b = c.
Proof. induction a as [|x a IH]; [auto|]. cbn. intros E. injection E as E. auto. Qed.
Lemma dot_inj n m x y : all_chars id_char n = true -> all_chars id_char m = true -> n ^^ String "." x = m ^^ String "." y -> n = m /\ x = y.
Proof.
  revert m. induction n as [|c n IH]; intros [|e m] A B E; cbn [append] in E.
  - injection E as E. auto.
  - injection E as <- _. cbn [all_chars] in B. discriminate B.
  - injection E as -> _. cbn [all_chars] in A. discriminate A.
  - injection E as -> E. cbn [all_chars] in A, B. rewrite andb_true_iff in A, B. destruct (IH m (proj2 A) (proj2 B) E) as [-> ->]. auto.
Qed.
Definition path2 (q : string * string) : string := isd_path (fst q) (String "." (snd q)).
Lemma path2_inj q r : all_chars id_char (fst q) = true -> all_chars id_char (fst r) = true -> path2 q = path2 r -> q = r.
Proof.
  destruct q as [n x], r as [m y]. cbn [fst]. intros A B E. unfold path2, isd_path in E. cbn [fst snd] in E. apply app_inj_l in E.
  destruct (dot_inj n m x y A B E) as [-> ->]. reflexivity.
Qed.
Definition fixed_names : list (string * string) :=
  [ ("EntityWriter", "h"); ("EntityWriter", "cpp"); ("EntityReader", "h"); ("EntityReader", "cpp"); ("DataTypes", "h"); ("DataTypes", "cpp"); ("DataValuePointers", "h");
    ("CombinedTypes", "h"); ("CombinedTypes", "cpp"); ("DynamicTypes", "cpp") ].
Definition entity_names (defs : list edef) : list (string * string) := flat_map (fun d => [(ed_name d, "h"); (ed_name d, "cpp")]) defs.
Lemma target_paths l dyn defs : map fst (targets l dyn (map entity_of defs)) = map path2 fixed_names ++ tests_path :: map path2 (entity_names defs).
Proof.
  unfold targets. rewrite map_app. cbn [map fst]. cbn [fixed_names map app]. do 11 f_equal. induction defs as [|d defs IH]; [reflexivity|]. cbn. do 2 f_equal. exact IH.
Qed.
Lemma NoDup_map_in {A B} (f : A -> B) l : (forall x y, In x l -> In y l -> f x = f y -> x = y) -> NoDup l -> NoDup (map f l).
Proof.
  intros F N. induction N as [|x l i N IH]; [constructor|]. cbn [map]. constructor.
  - intros j. apply in_map_iff in j. destruct j as (y & E & j). apply F in E; [subst; contradiction|right; exact j|left; reflexivity].
  - apply IH. intros y z a b. apply F; right; assumption.
Qed.
Lemma paths_distinct l dyn defs : names_free defs -> well defs -> NoDup (map fst (targets l dyn (map entity_of defs))).
Proof.
  intros [Nd Fr] W. rewrite target_paths. apply NoDup_Add with (a := tests_path) (l := map path2 fixed_names ++ map path2 (entity_names defs)); [apply Add_app|].
  rewrite <- map_app. split.
  - apply NoDup_map_in.
    + assert (C : forall q, In q (fixed_names ++ entity_names defs) -> all_chars id_char (fst q) = true).
      { intros q i. apply in_app_or in i. destruct i as [i|i]; [repeat (destruct i as [<-|i]; [reflexivity|]); destruct i|].
        apply in_flat_map in i. destruct i as (d & i & [<-|[<-|[]]]); exact (ed_name_chars d (W d i)). }
      intros q r i j. apply path2_inj; apply C; assumption.
    + assert (G : NoDup (entity_names defs)).
      { clear Fr W. unfold entity_names. induction defs as [|d defs IH]; [constructor|]. cbn [flat_map app]. inversion Nd; subst. 
        assert (Q : forall x, ~ In (ed_name d, x) (flat_map (fun d => [(ed_name d, "h"); (ed_name d, "cpp")]) defs)).
        { intros x i. apply in_flat_map in i. destruct i as (e & i & j). apply H1. apply in_map_iff. exists e. split; [|exact i]. destruct j as [j|[j|[]]]; congruence. }
        constructor; [intros [X|X]; [discriminate X|exact (Q _ X)]|]. constructor; [exact (Q _)|]. auto. }
      assert (K : forall q, In q fixed_names -> In (fst q) taken_names).
      { intros q i. repeat (destruct i as [<-|i]; [cbn; tauto|]). destruct i. }
      assert (M : NoDup fixed_names) by (repeat constructor; cbn; intuition discriminate).
      assert (Dj : forall q, In q fixed_names -> ~ In q (entity_names defs)).
      { intros q i j. apply in_flat_map in j. destruct j as (d & j & e). apply (Fr d j). apply K in i. destruct e as [<-|[<-|[]]]; exact i. }
      clear K. induction M as [|q r a M IH]; [exact G|]. cbn [app]. constructor; [intros X; apply in_app_or in X; destruct X as [X|X]; [exact (a X)|exact (Dj q (or_introl eq_refl) X)]|].
      apply IH. intros s i. apply Dj. right. exact i.
  - intros i. apply in_map_iff in i. destruct i as (q & E & _). discriminate E.
Qed.
Lemma bytes_inj a b : list_byte_of_string a = list_byte_of_string b -> a = b.
Proof. intros E. rewrite <- (string_of_list_byte_of_string a), E. apply string_of_list_byte_of_string. Qed.
Lemma byte_targets l dyn ents : map fst (map as_bytes (targets l dyn ents)) = map list_byte_of_string (map fst (targets l dyn ents)).
Proof. rewrite !map_map. reflexivity. Qed.
Lemma byte_paths_distinct l dyn defs : names_free defs -> well defs -> NoDup (map fst (map as_bytes (targets l dyn (map entity_of defs)))).
Proof. intros A B. rewrite byte_targets. apply NoDup_map_in; [intros x y _ _; apply bytes_inj|exact (paths_distinct l dyn defs A B)]. Qed.
Lemma byte_lines_plain l n dyn defs : proper l -> dyn_source n l = Some dyn -> well defs ->
  forall p ls, In (p, ls) (map as_bytes (targets l dyn (map entity_of defs))) -> plain ls.
Proof.
  intros P E W p ls i. apply in_map_iff in i. destruct i as ([q s] & X & i). injection X as _ <-. pose proof (targets_ok l n dyn defs P E W q s i) as O.
  intros x j. apply in_map_iff in j. destruct j as (y & <- & j). unfold okls in O. rewrite forallb_forall in O. apply okl_bytes. exact (O y j).
Qed.
Lemma generated_paths l dyn defs p : In p (map fst (targets l dyn (map entity_of defs))) -> generated defs p.
Proof.
  rewrite target_paths. intros i. apply in_app_or in i. destruct i as [i|[<-|i]]; [|left; reflexivity|]; right; apply in_map_iff in i; destruct i as (q & <- & i).
  - repeat (destruct i as [<-|i]; [eexists _, _; split; [reflexivity|]; split; [cbn; tauto|left; cbn; tauto]|]). destruct i.
  - apply in_flat_map in i. destruct i as (d & i & [<-|[<-|[]]]); (eexists _, _; split; [reflexivity|]; split; [cbn; tauto|right; apply in_map_iff; exists d; auto]).
Qed.
