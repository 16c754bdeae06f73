(** * GenDynFile: the generated files of the dynamic types, as a whole. Proofs. *)
From Coq Require Import Strings.String Strings.Ascii Strings.HexString.
From Verif Require Import Base Types GenText CppText CppSem GenTextSpec GenLex GenParse GenRW CppFun GenRWSpec GenRWParse GenRWFile
  GenDyn CppDyn GenTypes GenTypesSpec GenDynSpec GenDynAst GenDynParse.
Local Open Scope string_scope.
Local Open Scope list_scope.
Local Open Scope nat_scope.

(** ** The constants and clear_combined_type *)
Lemma dt_line T (r : string) : "        static constexpr data_type_index type_index = data_type_index::dt_" ^^ T ^^ "; // the data type index of " ^^ r
  = "        static constexpr data_type_index type_index = data_type_index::" ^^ ("dt_" ^^ T) ^^ "; // the data type index of " ^^ r.
Proof. rewrite !app_assoc_s. reflexivity. Qed.
(** Comments at the end of a line. *)
Lemma lx_comment_tail (r : string) : lx MNone ("; // the data type index of " ^^ r) = [Sy Semi].
Proof. reflexivity. Qed.
Lemma lex_dt n (r : string) : good n (Id n) ->
  lex_line ("        static constexpr data_type_index type_index = data_type_index::" ^^ n ^^ "; // the data type index of " ^^ r)
  = [Kw KStatic; Id "constexpr"; Id "data_type_index"; Id "type_index"; Sy Eq; Id "data_type_index"; Sy Colons; Id n; Sy Semi].
Proof.
  intros (G1 & G2 & G3). unfold lex_line.
  rewrite (lx_run true MNone "        static constexpr data_type_index type_index = data_type_index::" _
    [Kw KStatic; Id "constexpr"; Id "data_type_index"; Id "type_index"; Sy Eq; Id "data_type_index"; Sy Colons] MNone).
  - rewrite lx_name by assumption. rewrite lx_flush by reflexivity. rewrite G3, lx_comment_tail. reflexivity.
  - vm_compute. reflexivity.
  - intros _. apply (good_starts n (Id n)). split; [exact G1|split; assumption].
Qed.
Lemma lex_ct c (r : string) :
  lex_line ("        static constexpr container_type_index container_index = container_type_index::ct_" ^^ ct_name c ^^ "; // the container type index of " ^^ r)
  = [Kw KStatic; Id "constexpr"; Id "container_type_index"; Id "container_index"; Sy Eq; Id "container_type_index"; Sy Colons; Id ("ct_" ^^ ct_name c); Sy Semi].
Proof. destruct c; reflexivity. Qed.
Ltac seg_of2 l := lazymatch l with Id "template" :: ?r => r end.
(** The declaration of a structure ends with a semicolon. *)
Ltac drop_semi l := lazymatch l with [?a; Sy Semi] => constr:([a]) | ?a :: ?r => let q := drop_semi r in constr:(a :: q) end.
Ltac one_struct :=
  match goal with
  | |- finds _ ?l _ =>
    let l' := eval vm_compute in l in change l with l';
    let r := seg_of2 l' in let r2 := drop_semi r in
    apply finds_one with (seg := r2); [intros rest; vm_compute; reflexivity | vm_compute; reflexivity]
  end.
Ltac one_found :=
  match goal with
  | |- finds _ ?l _ =>
    let l' := eval vm_compute in l in change l with l';
    let r := seg_of2 l' in
    apply finds_one with (seg := r); [intros rest; vm_compute; reflexivity | vm_compute; reflexivity]
  end.
Lemma info_core T c dn l1 l2 : tgood T ->
  lex_line l1 = [Kw KStatic; Id "constexpr"; Id "data_type_index"; Id "type_index"; Sy Eq; Id "data_type_index"; Sy Colons; Id dn; Sy Semi] ->
  lex_line l2 = [Kw KStatic; Id "constexpr"; Id "container_type_index"; Id "container_index"; Sy Eq; Id "container_type_index"; Sy Colons; Id ("ct_" ^^ ct_name c); Sy Semi] ->
  finds pinfo (tokens
  [ "    // " ^^ combo T c; "    template<> struct combined_type_information<" ^^ combo T c ^^ ">"; "        {"; "        using data_type = " ^^ T ^^ ";";
    l1; l2; "        };"; "" ])
  [Info "combined_type_information" (combo_type T c)
    [("type_index", (Ct ["data_type_index"] [], ["data_type_index"; dn]));
     ("container_index", (Ct ["container_type_index"] [], ["container_type_index"; "ct_" ^^ ct_name c]))]].
Proof.
  intros G E1 E2. unfold tokens. cbn [map]. rewrite E1, E2. clear E1 E2.
  destruct G as [G|[-> G]]; destruct c; cbn [combo is_template ct_name combo_type]; rewrite ?app_assoc_s; lex_all; one_struct.
Qed.
Lemma info_finds T c : tgood T -> finds pinfo (tokens (comb_info T c)) [a_info T c].
Proof.
  intros G. unfold comb_info, a_info. apply info_core; [exact G| |].
  - rewrite dt_line. apply lex_dt. exact (dt_good T G).
  - apply lex_ct.
Qed.
Lemma clear_finds T c : tgood T -> finds pspecial (tokens (comb_clear T c)) [a_clear T c].
Proof.
  intros G. unfold comb_clear, a_clear, tokens.
  destruct G as [G|[-> G]]; destruct c; cbn [combo is_template ct_name combo_type map]; rewrite ?app_assoc_s; lex_all; one_found.
Qed.
(** All combinations. *)
Lemma names_in l n : In n (type_names_of l) <-> exists b v, In b l /\ In v (bt_variants b) /\ vr_impl v = n.
Proof.
  unfold type_names_of, by_base. rewrite in_concat. split.
  - intros (x & H & K). apply in_map_iff in H. destruct H as (b & <- & i). apply in_map_iff in K. destruct K as (v & <- & j). exists b, v. auto.
  - intros (b & v & i & j & <-). exists (map vr_impl (bt_variants b)). split; apply in_map_iff; eauto.
Qed.
Lemma flat_names {A} (f : string -> list A) l :
  flat_map (fun b => flat_map (fun v => f (vr_impl v)) (bt_variants b)) l = flat_map f (type_names_of l).
Proof.
  unfold type_names_of, by_base. induction l as [|b l IH]; cbn [flat_map map concat]; [reflexivity|]. rewrite flat_map_app, IH. f_equal.
  induction (bt_variants b) as [|v r IHr]; cbn [flat_map map]; [reflexivity|]. rewrite IHr. reflexivity.
Qed.
Lemma combos_names l f : for_all_combos l f = flat_map (fun n => flat_map (f n) containers6) (type_names_of l).
Proof. unfold for_all_combos. rewrite <- flat_names. reflexivity. Qed.
Lemma all_combos_flat {A} l (f : string -> ctype -> A) : all_combos l f = flat_map (fun n => flat_map (fun c => [f n c]) containers6) (type_names_of l).
Proof. reflexivity. Qed.
Definition names_good (l : list base_type) : Prop := forall n, In n (type_names_of l) -> tgood n.
Lemma proper_names l : dyn_proper l -> names_good l.
Proof.
  intros (H & _) n i. destruct (H n i) as (Q & _). destruct Q as [Q|Q]; [left; exact (good_ident n Q)|].
  assert (K : name_ok n \/ In n rw_names).
  { assert (D : In n rw_names \/ ~ In n rw_names) by (apply (In_decidable String.string_dec) || (destruct (in_dec String.string_dec n rw_names); auto)). destruct D as [D|D]; [auto|]. left. split; auto. }
  destruct K as [K|K]; [exact (name_good n K)|]. exfalso. unfold type_words in Q.
  repeat (destruct Q as [<-|Q]; [cbn in K; repeat (destruct K as [K|K]; [discriminate K|]); exact K|]). destruct Q.
Qed.
Lemma header_infos l : names_good l -> specials_of pinfo (comb_header l) = Some (all_combos l a_info).
Proof.
  intros G. unfold comb_header.
  apply (finds_file pinfo _ (tokens comb_head) (flat_map (fun n => flat_map (fun c => tokens (comb_info n c)) containers6) (type_names_of l)) (tokens ["    };"])).
  - rewrite !tokens_app. f_equal. f_equal. rewrite combos_names, tokens_flat. apply flat_map_ext. intros n. rewrite tokens_flat. reflexivity.
  - intros rest. vm_compute. reflexivity.
  - vm_compute. reflexivity.
  - rewrite all_combos_flat. apply finds_flat. intros n i. apply finds_flat. intros c _. apply info_finds. exact (G n i).
Qed.
Lemma source_clears l : names_good l -> specials_of pspecial (comb_source l) = Some (all_combos l a_clear).
Proof.
  intros G. unfold comb_source.
  apply (finds_file pspecial _ (tokens comb_src_head) (flat_map (fun n => flat_map (fun c => tokens (comb_clear n c)) containers6) (type_names_of l)) (tokens ["    };"])).
  - rewrite !tokens_app. f_equal. f_equal. rewrite combos_names, tokens_flat. apply flat_map_ext. intros n. rewrite tokens_flat. reflexivity.
  - intros rest. vm_compute. reflexivity.
  - vm_compute. reflexivity.
  - rewrite all_combos_flat. apply finds_flat. intros n i. apply finds_flat. intros c _. apply clear_finds. exact (G n i).
Qed.

(** ** Numbers *)
Lemma hex_pos : forall p r, hexadecimal (Raw.of_pos p r) = hexadecimal r /\ all_chars id_char (Raw.of_pos p r) = all_chars id_char r.
Proof.
  fix IH 1. intros p r.
  destruct p as [p|p|]; [| |split; reflexivity]; (destruct p as [p|p|]; [| |split; reflexivity]); (destruct p as [p|p|]; [| |split; reflexivity]);
    (destruct p as [p|p|]; [| |split; reflexivity]); cbn [Raw.of_pos];
    match goal with |- hexadecimal (Raw.of_pos p ?s) = _ /\ _ => destruct (IH p s) as [Q1 Q2]; rewrite Q1, Q2; split; reflexivity end.
Qed.
Lemma hex_good n : good (HexString.of_N n) (Id (HexString.of_N n)) /\ number (HexString.of_N n) = Some n.
Proof.
  unfold HexString.of_N. destruct n as [|p]; [split; [split; [|split]; [reflexivity|discriminate|reflexivity]|reflexivity]|].
  destruct (hex_pos p "") as [H1 H2]. split.
  - split; [|split; [discriminate|reflexivity]]. apply (idchars_app "0x" (Raw.of_pos p "")); [reflexivity|]. unfold idchars. rewrite H2. reflexivity.
  -     assert (Ne : streqb (Raw.of_pos p "") "" = false).
    { apply String.eqb_neq. intros E. pose proof (HexString.to_N_of_N (Npos p)) as K. change (HexString.of_N (N.pos p)) with (String "0" (String "x" (Raw.of_pos p ""))) in K. rewrite E in K. discriminate K. }
    change (number (String "0" (String "x" (Raw.of_pos p ""))) = Some (N.pos p)).
    transitivity (if hexadecimal (Raw.of_pos p "") && negb (streqb (Raw.of_pos p "") "") then Some (HexString.to_N (HexString.of_N (Npos p))) else None);
      [reflexivity|]. rewrite H1, Ne, HexString.to_N_of_N. reflexivity.
Qed.
(** ** The enumeration *)
Lemma enum_one x : tgood (snd x) -> lex_line (enum_line x) = [Id ("dt_" ^^ snd x); Sy Eq; Id (HexString.of_N (fst x)); Sy Comma].
Proof.
  intros G. pose proof (dt_good _ G) as G1. destruct (hex_good (fst x)) as [G2 _]. unfold enum_line.
  replace ("		dt_" ^^ snd x ^^ " = " ^^ HexString.of_N (fst x) ^^ ",") with ("		" ^^ ("dt_" ^^ snd x) ^^ " = " ^^ HexString.of_N (fst x) ^^ ",")
    by (rewrite !app_assoc_s; reflexivity).
  generalize dependent ("dt_" ^^ snd x). intros n G1. generalize dependent (HexString.of_N (fst x)). intros m G2. lex_one. reflexivity.
Qed.
Lemma enum_lines xs : (forall x, In x xs -> tgood (snd x)) ->
  forall rest, penumerators (tokens (map enum_line xs) ++ rest) = match penumerators rest with Some (es, r) => Some (map (fun x => ("dt_" ^^ snd x, fst x)) xs ++ es, r) | None => None end.
Proof.
  induction xs as [|x xs IH]; intros G rest; cbn [map app]; [change (tokens []) with (@nil tok); cbn [app]; destruct (penumerators rest) as [[? ?]|]; reflexivity|].
  rewrite tokens_cons. unfold tokens at 1. cbn [map]. rewrite enum_one by (apply G; left; reflexivity). cbn [filter is_directive negb concat app penumerators].
  rewrite (proj2 (hex_good (fst x))). cbn [app]. rewrite IH by (intros y i; apply G; right; exact i).
  destruct (penumerators rest) as [[? ?]|]; reflexivity.
Qed.
Lemma enum_parses l : names_good l -> enum_of (tokens (enum_text l)) = Some (a_enum l).
Proof.
  intros G. unfold enum_text. rewrite !tokens_app.
  change (tokens ["	// all value type indices"; "	enum class data_type_index"; "		{"]) with [Id "enum"; Kw KClass; Id "data_type_index"; Sy LBrace].
  change (tokens ["		};"; ""]) with [Sy RBrace; Sy Semi]. cbn [app enum_of]. change (streqb "enum" "enum") with true. cbn iota.
  rewrite enum_lines.
  - cbn [penumerators]. rewrite app_nil_r. reflexivity.
  - intros x i. apply G. unfold type_lists in i. fold (by_base l) in i. unfold type_enum in i. revert i. generalize 0%N. unfold type_names_of. generalize (by_base l).
    induction l0 as [|vs r IH]; intros b i; cbn [number_types concat] in *; [destruct i|]. apply in_app_iff in i. apply in_app_iff. destruct i as [i|i]; [left|right; exact (IH _ i)].
    revert i. generalize 0%N. induction vs as [|v vs IHv]; intros m i; cbn [number_variants] in i; [destruct i|].
    destruct i as [<-|i]; [left; reflexivity|right; exact (IHv _ i)].
Qed.

(** ** The table *)
Lemma slot_tokens x : (forall e, x = Some e -> tgood (en_variant e)) ->
  lex_line (table_line x) = match slot_object x with Some o => [Sy Amp; Id o; Sy Comma] | None => [Kw KNull; Sy Comma] end.
Proof.
  intros G. destruct x as [e|]; [|reflexivity]. pose proof (obj_good _ (en_container e) (G e eq_refl)) as G1. cbn [table_line slot_object].
  replace ("        &_dt_" ^^ en_variant e ^^ "_ct_" ^^ ct_name (en_container e) ^^ "_DynamicTypeObject,")
    with ("        &" ^^ obj_name (en_variant e) (en_container e) ^^ ",") by (unfold obj_name; rewrite !app_assoc_s; reflexivity).
  generalize dependent (obj_name (en_variant e) (en_container e)). intros n G1. lex_one. reflexivity.
Qed.
Lemma table_slots (tab : gtable string ctype) : (forall e, In (Some e) tab -> tgood (en_variant e)) ->
  forall rest, pslots (tokens (map table_line tab) ++ rest) = match pslots rest with Some (es, r) => Some (map slot_object tab ++ es, r) | None => None end.
Proof.
  induction tab as [|x tab IH]; intros G rest; cbn [map app]; [change (tokens []) with (@nil tok); cbn [app]; destruct (pslots rest) as [[? ?]|]; reflexivity|].
  rewrite tokens_cons. unfold tokens at 1. cbn [map]. rewrite slot_tokens by (intros e ->; apply G; left; reflexivity).
  destruct (slot_object x) as [o|]; cbn [filter is_directive negb concat app pslots]; rewrite IH by (intros y i; apply G; right; exact i);
    destruct (pslots rest) as [[? ?]|]; reflexivity.
Qed.
Lemma table_item (tab : gtable string ctype) : (forall e, In (Some e) tab -> tgood (en_variant e)) ->
  many pditem (tokens dyn_table_head ++ tokens (map table_line tab) ++ [Sy RBrace; Sy Semi]) [a_table tab].
Proof.
  intros G.
  change (tokens dyn_table_head) with [Kw KStatic; Kw KConst; Id "_dynamicTypeClass"; Sy Star; Id "_dynamicTypeClassHashTable"; Bad lbracket; Id "577"; Bad rbracket; Sy Eq; Sy LBrace].
  apply many_one; [discriminate| |exact Logic.I]. intros rest. cbn [app pditem]. change (Ascii.eqb lbracket lbracket) with true. cbn iota.
  unfold pbind. rewrite <- app_assoc.
  match goal with |- context [pnumber (Id "577" :: ?l)] => change (pnumber (Id "577" :: l)) with (Some (577%N, l)) end. cbv iota beta.
  match goal with |- context [bad rbracket ?l] => change (bad rbracket l) with (Some (tt, tl l)) end. cbn [tl]. cbv iota beta.
  match goal with |- context [need Eq ?l] => change (need Eq l) with (Some (tt, tl l)) end. cbn [tl]. cbv iota beta.
  match goal with |- context [need LBrace ?l] => change (need LBrace l) with (Some (tt, tl l)) end. cbn [tl]. cbv iota beta.
  rewrite (table_slots tab G). cbn [app pslots]. rewrite app_nil_r. reflexivity.
Qed.
(** ** The file *)
Lemma find_tokens : exists ts, tokens dyn_find = [Sy RBrace; Sy Semi] ++ ts /\ many pditem ts [a_find].
Proof.
  eexists. split; [vm_compute; reflexivity|]. apply many_one; [discriminate|intros rest; vm_compute; reflexivity|exact Logic.I].
Qed.
Lemma head_tokens : exists ts, tokens dyn_head = [Kw KNamespace; Id "ISD"; Sy LBrace; Kw KNamespace; Id "dynamic_types"; Sy LBrace] ++ ts
  /\ many pditem ts [a_struct; a_abstract].
Proof.
  eexists. split; [vm_compute; reflexivity|].
  split; [vm_compute; lia|]. intros rest k. cbn [app length Nat.add].
  match goal with |- pmany _ _ ?l = _ => let v := eval vm_compute in (pditem l) in
    match v with Some (?s, ?r) => rewrite (pmany_step pditem _ l a_struct r) by first [vm_compute; reflexivity | exact Logic.I] end end.
  match goal with |- context [pmany pditem (S k) ?l] => rewrite (pmany_step pditem _ l a_abstract rest) by first [vm_compute; reflexivity | exact Logic.I] end.
  destruct (pmany pditem k rest) as [[b r]|]; reflexivity.
Qed.
Lemma functions_parse : pmany pditem 100 (tokens dyn_functions) = Some (a_functions, [Sy Semi; Sy RBrace; Sy Semi]).
Proof. vm_compute. reflexivity. Qed.
Lemma file_parses l (tab : gtable string ctype) : names_good l -> (forall e, In (Some e) tab -> tgood (en_variant e)) ->
  dyn_file (tokens (dyn_head ++ for_all_combos l dyn_class ++ dyn_table_head ++ map table_line tab ++ dyn_find ++ dyn_functions))
  = Some (a_struct :: a_abstract :: all_combos l a_class ++ a_table tab :: a_find :: a_functions).
Proof.
  intros G1 G2. rewrite !tokens_app. destruct head_tokens as (th & Eh & Mh). destruct find_tokens as (tf & Ef & Mf). rewrite Eh, Ef.
  cbn [app]. unfold dyn_file. change (streqb "ISD" "ISD" && streqb "dynamic_types" "dynamic_types") with true. cbv iota.
  set (tc := tokens (for_all_combos l dyn_class)). set (tt := tokens (map table_line tab)).
  assert (Mc : many pditem tc (all_combos l a_class)).
  { unfold tc. rewrite combos_names, tokens_flat, all_combos_flat. apply many_flat. intros n i. rewrite tokens_flat. apply many_flat. intros c _. apply class_parses. exact (G1 n i). }
  pose proof (table_item tab G2) as Mt. fold tt in Mt.
  pose proof (many_app _ _ _ _ _ Mh (many_app _ _ _ _ _ Mc (many_app _ _ _ _ _ Mt Mf))) as [M1 M2].
  assert (E : forall rest, th ++ tc ++ tokens dyn_table_head ++ tt ++ Sy RBrace :: Sy Semi :: tf ++ rest
    = (th ++ tc ++ (tokens dyn_table_head ++ tt ++ [Sy RBrace; Sy Semi]) ++ tf) ++ rest) by (intros rest; rewrite <- !app_assoc; reflexivity).
  rewrite E. set (pre := th ++ tc ++ (tokens dyn_table_head ++ tt ++ [Sy RBrace; Sy Semi]) ++ tf) in *.
  set (xs := [a_struct; a_abstract] ++ all_combos l a_class ++ [a_table tab] ++ [a_find]) in *.
  rewrite (pmany_mono pditem (length xs + 100) (pre ++ tokens dyn_functions) (xs ++ a_functions, [Sy Semi; Sy RBrace; Sy Semi])).
  - unfold xs. rewrite <- !app_assoc. reflexivity.
  - rewrite M2, functions_parse. reflexivity.
  - rewrite app_length. assert (100 <= length (tokens dyn_functions)) by (vm_compute; lia). lia.
Qed.
Lemma containers_parse : enum_of (tokens container_enum_text) = Some a_containers.
Proof. vm_compute. reflexivity. Qed.
Theorem program_parses l (tab : gtable string ctype) : names_good l -> (forall e, In (Some e) tab -> tgood (en_variant e)) ->
  parse_program [enum_text l; container_enum_text] (comb_header l) (comb_source l)
    (dyn_head ++ for_all_combos l dyn_class ++ dyn_table_head ++ map table_line tab ++ dyn_find ++ dyn_functions)
  = Some (a_program l tab).
Proof.
  intros G1 G2. unfold parse_program. rewrite (enum_parses l G1), containers_parse, (header_infos l G1), (source_clears l G1), (file_parses l tab G1 G2). reflexivity.
Qed.
