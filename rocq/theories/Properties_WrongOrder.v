(** * C60: data read with the wrong byte order. *)
From Verif Require Import Base Bytes BytesFacts Values Streams FileSpec StreamFacts Types Format EntityReader Items ItemSpec
  Sections Documents DocSpec SectionFacts SectionTheorems KeySpec Containers Keys Classes DynTypes Varying VaryingSpec EntityGen EntitySpec
  WrongOrderSpec WrongOrder WrongOrderClassSpec WrongOrderClass.
From Verif Require Properties_Table.
Local Open Scope N_scope.

(** C60. At a string, array or section, or an absent one, written with the other byte order, every reading call
    reports failure, whatever type, name and container are asked for; nothing is allocated, there is no exception
    and no undefined behaviour (streams below 4 GiB). *)
Theorem C60_large : forall vt key payload pre post fl, 0x40 <= vt -> vt < 256 ->
  let bytes := large_block (negb fl) vt key payload ++ post in
  below_4g (len pre + len bytes) ->
  (forall e t key' dest, exists v s', er_read e t key' dest (RS (pre ++ bytes) (len pre) fl) = Done (false, v, s')) /\
  (forall e key' null_ok, exists st', r_begin e 0 key' null_ok (r_open (RS (pre ++ bytes) (len pre) fl)) = Done (None, false, st')) /\
  (forall e key' null_ok ix, exists st',
     r_begin_arr e 0 key' null_ok ix (r_open (RS (pre ++ bytes) (len pre) fl)) = Done (None, 0, false, ix, st')).
Proof. exact large_open_flip. Qed.
Print Assumptions C60_large.

(** C60. A document written with the other byte order. If it consists of single and optional values of base types
    but strings, it is read without any error, and every number is delivered with its bytes reversed; if it contains
    anything else, reading it fails. *)
Theorem C60_document : forall w r e fl post, nodes_ok w -> nodes_mirror w r ->
  let bytes := nodes_bytes (negb fl) w in
  below_4g (len bytes + len post) -> 4 * len bytes <= e_lim e ->
  (plain_nodes w -> exists st', read_nodes e 0 r (r_open (RS (bytes ++ post) 0 fl)) = Done (true, swapped_nodes w, st') /\
     r_stream st' = RS (bytes ++ post) (len bytes) fl) /\
  (~ plain_nodes w -> exists w' st', read_nodes e 0 r (r_open (RS (bytes ++ post) 0 fl)) = Done (false, w', st')).
Proof. exact doc_open_flip. Qed.
Print Assumptions C60_document.

(** C60. An object of any class written with the other byte order: entities all of whose variables are single or
    optional values of base types but strings, and a Varying that holds a float matrix with four rows, are read without
    any error, every number with its bytes reversed; reading any other object fails. *)
Theorem C60_class : forall I s x d e fl post, s_sound s -> s_ok s x -> s_fits s x -> s_ok s d ->
  let bytes := nodes_bytes (negb fl) (s_doc s x) in
  below_4g (len bytes + len post) -> 4 * len bytes <= e_lim e ->
  (order_blind s x -> exists st', m_read (smf I s) e 0 d (r_open (RS (bytes ++ post) 0 fl)) = Done (true, swapped_object s x, st') /\
     r_stream st' = RS (bytes ++ post) (len bytes) fl) /\
  (~ order_blind s x -> exists y st', m_read (smf I s) e 0 d (r_open (RS (bytes ++ post) 0 fl)) = Done (false, y, st')).
Proof. exact class_open_flip. Qed.
Print Assumptions C60_class.

(** Non-vacuity. A u32 0x11223344 written in one order and read in the other; followed by a string. *)
Definition ex_item : item := Item (TUInt I32) [x61] (CV (VP [x44; x33; x22; x11])).
Example C60_example :
  nodes_ok (Cons (NItem ex_item) Nil) /\ plain_nodes (Cons (NItem ex_item) Nil) /\
  swapped_node (NItem ex_item) = NItem (Item (TUInt I32) [x61] (CV (VP [x11; x22; x33; x44]))) /\
  ~ plain_nodes (Cons (NItem ex_item) (Cons (NItem (Item TString [x62] (CV (VS [x63])))) Nil)) /\
  read_nodes (RE (2^20) (fun _ => x00)) 0 (Cons (NItem ex_item) Nil)
    (r_open (RS (nodes_bytes true (Cons (NItem ex_item) Nil)) 0 false)) =
    Done (true, Cons (NItem (Item (TUInt I32) [x61] (CV (VP [x11; x22; x33; x44])))) Nil,
          RSt (RS (nodes_bytes true (Cons (NItem ex_item) Nil)) 7 false) [rf_new 0 7] 1).
Proof. repeat split; try (vm_compute; reflexivity); try (vm_compute; discriminate). intros (_ & X & _). discriminate X. Qed.

(** A Varying that holds a matrix, and one that holds a vector of three floats. *)
Example C60_example_varying :
  order_blind SVarying (v_of (Holds (TMat D4 F32, CtNone) (CV (VP (rep x01 64))))) /\
  ~ order_blind SVarying (v_of (Holds (TVec D3 F32, CtNone) (CV (VP (rep x01 12))))) /\
  s_ok SVarying (v_of (Holds (TMat D4 F32, CtNone) (CV (VP (rep x01 64))))) /\
  order_blind NodeGeometry (CV (VP (rep x01 32)), tt) /\ ~ order_blind AttributeLayer (CV (VS []), tt).
Proof.
  split; [eexists; reflexivity|]. split; [intros (c & E); discriminate E|]. split; [eexists; split; [reflexivity|split; reflexivity]|].
  split; [split; [reflexivity|exact Logic.I]|]. intros (X & _). discriminate X.
Qed.
