(** * Properties_GenData: the C++ text of the data types (C55). *)
From Coq Require Import Strings.String.
From Verif Require Import Base Bytes BytesFacts Values Types Keys KeyFacts Refs RefFacts GenText CppText GenRW GenTypes GenDyn GenData CppData GenDataSpec GenDataFacts GenDataOps.
Local Open Scope string_scope.
Local Open Scope list_scope.
Local Open Scope N_scope.

(** ** C55: the generated ISD_DataTypes.h, ISD_DataTypes.cpp and ISD_DataValuePointers.h compile, and in a program that includes them: *)
(** data_type_information<t> exists for every data type t. value_type is the type of t's components, and as many components as value_count
    says fill an object of type t; value_name and type_name are the names of these types; type_index is the data type's id; zero and inf
    are there, and sup is, but for strings. *)
Theorem C55_information : exists G, compile_data (data_header isd_types) data_source pointers_header = Some G /\
  forall t, let n := cpp_name t in
    (exists u, type_called G (component_name t) = Some u /\ member_using G n "value_type" = Some u /\
       forall size, type_size t = Some size -> exists w, lsize u = Some w /\ component_count t * w = size) /\
    member_number G n "value_count" = Some (component_count t) /\
    member_text G n "value_name" = Some (component_name t) /\ member_text G n "type_name" = Some n /\
    member_number G n "type_index" = Some (dt_id t) /\
    has_member G n "zero" = true /\ has_member G n "inf" = true /\ (has_member G n "sup" = true <-> t <> TString).
Proof.
  exists data_genv. split; [exact data_compiled|]. intros t n. destruct (members t) as ((u & w & A & B & C & D) & R). split; [|exact R].
  exists u. split; [exact A|]. split; [exact B|]. intros s E. destruct (D s E) as (x & -> & F). exists x. auto.
Qed.
Print Assumptions C55_information.

(** zero is a value of the type, with all components zero (all bits of an identifier zero, false, the empty string); inf and sup are values
    of the type, and no value of the type is below inf or above sup in any component that is a number. *)
Theorem C55_limits : exists G, compile_data (data_header isd_types) data_source pointers_header = Some G /\
  forall t, exists zero inf,
    member_value G (cpp_name t) "zero" = Some zero /\ val_ok t zero /\ is_zero t zero /\
    member_value G (cpp_name t) "inf" = Some inf /\ val_ok t inf /\ (forall v, val_ok t v -> lower t inf v) /\
    (t <> TString -> exists sup, member_value G (cpp_name t) "sup" = Some sup /\ val_ok t sup /\ forall v, val_ok t v -> upper t sup v).
Proof.
  exists data_genv. split; [exact data_compiled|]. intros t. destruct (limits_typed t) as (A & B & C).
  exists (val_default (dshape t)), (inf_of t). split; [apply zero_default|]. split; [exact A|]. split; [apply zero_is_zero|]. split; [apply inf_there|].
  split; [exact B|]. split; [intros v; apply lower_inf|]. intros T. exists (sup_of t). split; [exact (sup_there t T)|]. split; [exact (C T)|].
  intros v. exact (upper_sup t v T).
Qed.
Print Assumptions C55_limits.

(** value_ptr of a variable points to its beginning, to objects of the type of its components; they are constant just if the variable is.
    There is no value_ptr for bool and for references. *)
Theorem C55_value_ptr : exists G, compile_data (data_header isd_types) data_source pointers_header = Some G /\
  forall constant t v,
    (t = TBool \/ t = TEntityRef \/ t = TPackageRef -> ask_ptr G constant (cpp_name t) v = None) /\
    (t <> TBool -> t <> TEntityRef -> t <> TPackageRef ->
     exists u, type_called G (component_name t) = Some u /\ ask_ptr G constant (cpp_name t) v = Some (u, constant, true)).
Proof. exists data_genv. split; [exact data_compiled|]. intros c t v. split; [apply no_pointers|apply pointers]. Qed.
Print Assumptions C55_value_ptr.

(** uuid and hash, entity_ref and package_ref ([kind_name k false] and [kind_name k true]): < is the order of the bytes, == and != tell
    whether all bytes are the same, std::hash is the exclusive or of the 64 bit words. A reference is zero if nothing is given; a copy is
    equal and the original unchanged, after a move the original is zero; it converts to true unless it is zero, and to its identifier.
    entity_ref can be made of nothing or another one only, package_ref also of a hash. *)
Theorem C55_identifiers : exists G, compile_data (data_header isd_types) data_source pointers_header = Some G /\ forall k,
  (forall ref a b, len a = rsize k -> len b = rsize k ->
     (exists lt, ask_oper G CppText.Lt (kind_name k ref) (VP a) (VP b) = Some lt /\ (lt = true <-> bytes_before a b)) /\
     (exists eq, ask_oper G EqEq (kind_name k ref) (VP a) (VP b) = Some eq /\ (eq = true <-> a = b)) /\
     (exists ne, ask_oper G BangEq (kind_name k ref) (VP a) (VP b) = Some ne /\ (ne = true <-> a <> b))) /\
  (forall ref w0 w1 w2 w3, len w0 = 8 -> len w1 = 8 -> len w2 = 8 -> len w3 = 8 ->
     ask_hash G (kind_name k ref) (VP (match k with ERef => w0 ++ w1 | PRef => w0 ++ w1 ++ w2 ++ w3 end)) =
     Some (match k with ERef => N.lxor (weight w0) (weight w1) | PRef => N.lxor (weight w0) (N.lxor (weight w1) (N.lxor (weight w2) (weight w3))) end)) /\
  ask_default G (ref_name k) = Some (VP (rep x00 (rsize k))) /\
  (forall a b, len a = rsize k -> len b = rsize k ->
     ask_build G false (ref_name k) (ref_name k) (VP a) = Some (VP a, VP a) /\
     ask_build G true (ref_name k) (ref_name k) (VP a) = Some (VP a, VP (rep x00 (rsize k))) /\
     ask_assign G false (ref_name k) (VP a) (VP b) = Some (VP b, VP b) /\
     ask_assign G true (ref_name k) (VP a) (VP b) = Some (VP b, VP (rep x00 (rsize k))) /\
     ask_build G false (ref_name k) (id_name k) (VP a) = Some (VP a, VP a) /\
     ask_convert G (ref_name k) (id_name k) (VP a) = Some (VP a) /\
     exists truth, ask_convert G (ref_name k) "bool" (VP a) = Some (VB truth) /\ (truth = true <-> a <> rep x00 (rsize k))) /\
  public_ctors G (ref_name k) = match k with ERef => [[]; ["entity_ref"]; ["entity_ref"]] | PRef => [[]; ["hash"]; ["package_ref"]; ["package_ref"]] end.
Proof.
  exists data_genv. split; [exact data_compiled|]. intros k. split; [|split; [|split; [|split]]].
  - intros ref a b A B. split; [|split].
    + exists (lex_lt a b). split; [exact (text_lt k ref a b A B)|]. rewrite before_lex. unfold lex_lt. destruct (lex a b); split; congruence.
    + exists (id_eq k a b). split; [exact (text_eq k ref a b)|exact (id_eq_iff k a b A B)].
    + exists (id_ne k a b). split; [exact (text_ne k ref a b)|]. rewrite id_ne_neg, negb_true_iff, <- not_true_iff_false, (id_eq_iff k a b A B). reflexivity.
  - intros ref w0 w1 w2 w3 L0 L1 L2 L3. rewrite text_hash. f_equal. destruct k; cbn [id_hash]; exact (hash_words_2 _ _ L0 L1) || exact (hash_words_4 _ _ _ _ L0 L1 L2 L3).
  - exact (ref_default_text k).
  - intros a b A B. split; [exact (ref_copy_text k a)|]. split; [exact (ref_move_text k a)|]. split; [exact (ref_assign_text k a b)|].
    split; [exact (ref_take_text k a b)|]. split; [exact (ref_from_text k a)|]. split; [exact (ref_id_text k a)|].
    exists (ref_bool k a). split; [exact (text_bool k a)|]. unfold ref_bool. rewrite id_ne_neg, negb_true_iff, <- not_true_iff_false, (id_eq_iff k a _ A (len_zero k)). reflexivity.
  - destruct k; vm_compute; reflexivity.
Qed.
Print Assumptions C55_identifiers.

(** The values and functions in the text are those of the model, which the other properties are about: val_default is the value a variable
    of a data type is initialised with, key_inf and key_sup are the limits of the keys, and key_lt, key_eq and key_hash their order, equality
    and hash function (Keys.v); ref_... are the operations of references (Refs.v). *)
Theorem C55_model : exists G, compile_data (data_header isd_types) data_source pointers_header = Some G /\
  (forall t, member_value G (cpp_name t) "zero" = Some (val_default (dshape t))) /\
  (forall t, is_key t = true -> member_value G (cpp_name t) "inf" = Some (key_inf t)) /\
  (forall t, is_node t = true -> member_value G (cpp_name t) "sup" = Some (key_sup t)) /\
  (forall t a b, In t [TUuid; TEntityRef; THash; TPackageRef] -> val_ok t a -> val_ok t b ->
     ask_oper G CppText.Lt (cpp_name t) a b = Some (key_lt t a b) /\ ask_oper G EqEq (cpp_name t) a b = Some (key_eq t a b) /\
     ask_oper G BangEq (cpp_name t) a b = Some (negb (key_eq t a b)) /\ ask_hash G (cpp_name t) a = Some (key_hash t a)) /\
  (forall k a b,
     ask_default G (ref_name k) = Some (VP (ref_default k)) /\
     ask_build G false (ref_name k) (ref_name k) (VP a) = Some (VP (ref_copy a), VP a) /\
     ask_build G true (ref_name k) (ref_name k) (VP a) = Some (VP (ref_copy a), VP (ref_left k)) /\
     ask_assign G false (ref_name k) (VP a) (VP b) = Some (VP (ref_copy b), VP b) /\
     ask_assign G true (ref_name k) (VP a) (VP b) = Some (VP (ref_copy b), VP (ref_left k)) /\
     ask_oper G EqEq (ref_name k) (VP a) (VP b) = Some (ref_eq k a b) /\ ask_oper G BangEq (ref_name k) (VP a) (VP b) = Some (ref_ne k a b) /\
     ask_convert G (ref_name k) "bool" (VP a) = Some (VB (ref_bool k a))).
Proof.
  exists data_genv. split; [exact data_compiled|]. split; [exact zero_default|]. split; [exact inf_key|]. split; [exact sup_key|]. split.
  - exact text_keys.
  - intros k a b. repeat (split; [first [exact (ref_default_text k)|exact (ref_copy_text k a)|exact (ref_move_text k a)|exact (ref_assign_text k a b)|exact (ref_take_text k a b)
      |exact (text_eq k true a b)|exact (text_ne k true a b)]|]). exact (text_bool k a).
Qed.
Print Assumptions C55_model.

(** ** Witnesses *)
Example some_limits : exists G, compile_data (data_header isd_types) data_source pointers_header = Some G /\
  member_value G "i16vec2" "inf" = Some (VP [x00; x80; x00; x80]) /\ member_value G "fvec2" "sup" = Some (VP [xff; xff; x7f; x7f; xff; xff; x7f; x7f]) /\
  member_value G "uuid" "sup" = Some (VP (rep xff 16)) /\ member_text G "dmat3" "value_name" = Some "double" /\ member_number G "dmat3" "value_count" = Some 9.
Proof. exists data_genv. split; [exact data_compiled|]. vm_compute. repeat split. Qed.
Example some_order : exists G, compile_data (data_header isd_types) data_source pointers_header = Some G /\
  ask_oper G CppText.Lt "package_ref" (VP (x01 :: rep xff 31)) (VP (x02 :: rep x00 31)) = Some true /\
  ask_oper G CppText.Lt "uuid" (VP (x02 :: rep x00 15)) (VP (x01 :: rep xff 15)) = Some false /\
  ask_oper G EqEq "hash" (VP (rep x01 32)) (VP (rep x01 31 ++ [x02])) = Some false /\ ask_hash G "uuid" (VP (rep x01 8 ++ rep x03 8)) = Some 0x0202020202020202.
Proof. exists data_genv. split; [exact data_compiled|]. vm_compute. repeat split. Qed.
(** The limits are tight: -32768 is a value of i16, and there is a value between inf and sup that is not a limit. *)
Example in_between : val_ok (TInt I16) (VP [x00; x01]) /\ lower (TInt I16) (VP [x00; x80]) (VP [x00; x01]) /\ ~ lower (TInt I16) (VP [x00; x01]) (VP [x00; x80]).
Proof.
  split; [reflexivity|]. split.
  - intros i x Hi E. assert (i = 0) by (cbn in Hi; lia). subst i. injection E as <-. eexists. split; [reflexivity|]. vm_compute. discriminate.
  - intros H. destruct (H 0 (-32768)%Z eq_refl eq_refl) as (y & E & L). vm_compute in E. injection E as <-. lia.
Qed.
(** Text that does not compile, and a wrong literal: a value of the type, but not zero. *)
Example broken_text : compile_data (data_header isd_types) (data_source ++ ["};"]) pointers_header = None.
Proof. vm_compute. reflexivity. Qed.
