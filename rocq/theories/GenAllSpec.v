(** * GenAllSpec: what the files of the code generator must say. *)
From Coq Require Import Strings.String.
From Verif Require Import Base Bytes Values Types Keys KeySpec Classes EntityGen Refs GenText CppText CppSem GenTextSpec GenRW CppFun GenRWSpec GenTypes GenDyn CppDyn GenDynSpec
  CppData GenDataSpec GenFiles.
Local Open Scope string_scope.
Local Open Scope list_scope.

(** ** Files as a compiler sees them *)
(** The text cut at the line feeds; [cur] is the beginning of the line, in reverse order. *)
Fixpoint cut_lines (cur t : list byte) : list (list byte) :=
  match t with
  | [] => match cur with [] => [] | _ => [rev cur] end
  | c :: r => if Byte.eqb c LF then rev cur :: cut_lines [] r else cut_lines (c :: cur) r
  end.
(** The lines of the file with this path; no lines if there is none. *)
Definition seen (fs : files) (path : string) : list string :=
  match fs (list_byte_of_string path) with
  | Some f => map string_of_list_byte (cut_lines [] (from_disk (f_bytes f)))
  | None => []
  end.
(** The names of the generated files that are not entities: ISD_x.h or ISD_x.cpp. *)
Definition taken_names : list string := [ "EntityWriter"; "EntityReader"; "DataTypes"; "DataValuePointers"; "CombinedTypes"; "DynamicTypes" ].
(** Entities whose names are identifiers, different from each other and from those. *)
Definition names_free (defs : list edef) : Prop := NoDup (map ed_name defs) /\ forall d, In d defs -> ~ In (ed_name d) taken_names.
(** The paths of the generated files. *)
Definition generated (defs : list edef) (p : string) : Prop :=
  p = "../Tests/DynamicTypesTests.cpp" \/ exists n x, p = "../ISD/ISD_" ^^ n ^^ x /\ (x = ".h" \/ x = ".cpp") /\ (In n taken_names \/ In n (map ed_name defs)).

(** ** What the texts say, for the list of data types [l] *)
(** ISD_EntityWriter.h and ISD_EntityWriter.cpp (C53): Write<T> for just the types of the list in the six containers. *)
Definition writer_says (l : list base_type) (header source : list string) : Prop :=
  (exists hs, file_specs 2 header = Some hs /\ names_types l ["Write"] true false hs) /\
  (exists ss, file_specs 1 source = Some ss /\ names_types l ["EntityWriter"; "Write"] true true ss /\
   forall St (h : host St), compiled_for l "Write" "dstream" h -> forall n const c st,
     (forall t b, stored_as l t b ->
        CppFun.call h ss (S n) (GenRWSpec.type_of t (cval_ctype c)) const c st = omap (fun r => (fst r, c, snd r)) (write_plain h b t c st)) /\
     (forall t i b f, stored_by l t i -> stored_as l i b -> h_conv h t i = Some f ->
        CppFun.call h ss (S (S n)) (GenRWSpec.type_of t (cval_ctype c)) const c st = omap (fun r => (fst r, c, snd r)) (write_plain h b i (cmap f c) st))).
(** ISD_EntityReader.h and ISD_EntityReader.cpp (C53). *)
Definition reader_says (l : list base_type) (header source : list string) : Prop :=
  (exists hs, file_specs 2 header = Some hs /\ names_types l ["Read"] false false hs) /\
  (exists ss, file_specs 1 source = Some ss /\ names_types l ["EntityReader"; "Read"] false true ss /\
   forall St (h : host St), compiled_for l "Read" "sstream" h -> forall n dest st,
     (forall t b, stored_as l t b -> CppFun.call h ss (S n) (GenRWSpec.type_of t (cval_ctype dest)) false dest st = read_plain h b t dest st) /\
     (forall t i b f, stored_by l t i -> stored_as l i b -> h_conv h i t = Some f ->
        CppFun.call h ss (S (S n)) (GenRWSpec.type_of t (cval_ctype dest)) false dest st = read_over h b i f dest st)).
(** ISD_DynamicTypes.cpp, compiled with ISD_CombinedTypes.h, ISD_CombinedTypes.cpp, the enumeration in ISD_DataTypes.h and the one in
    ISD_Types.h (C54): the functions of ISD::dynamic_types do what they are meant to. *)
Definition dynamic_says (l : list base_type) (data_h comb_h comb_s dyn : list string) : Prop :=
  exists before enum after pg, data_h = before ++ enum ++ after /\ In "	enum class data_type_index" enum /\
    ~ In "	enum class data_type_index" (before ++ after) /\
    parse_program [enum; container_enum_text] comb_h comb_s dyn = Some pg /\ CppDyn.compiles pg = true /\
    forall W R (h : dhost W R), declared l h ->
    forall d k, exists found, (forall t c, found = Some (t, c) <-> listed l d k t c) /\
      forall fuel const q w, (577 < fuel)%nat -> run_program h pg fuel (function_name q) (arguments const d k q) w = meant h found q w.
(** ISD_DataTypes.h, ISD_DataTypes.cpp and ISD_DataValuePointers.h (C55): the data types are described, their zero, inf and sup are the
    values the model works with, and so are the order, equality and hash of identifiers and references, and the operations of references. *)
Definition data_says (header source pointers : list string) : Prop :=
  exists G, compile_data header source pointers = Some G /\
  (forall t, member_number G (cpp_name t) "value_count" = Some (component_count t) /\ member_number G (cpp_name t) "type_index" = Some (dt_id t) /\
     member_text G (cpp_name t) "value_name" = Some (component_name t) /\ member_text G (cpp_name t) "type_name" = Some (cpp_name t)) /\
  (forall t, member_value G (cpp_name t) "zero" = Some (val_default (dshape t))) /\
  (forall t, is_key t = true -> member_value G (cpp_name t) "inf" = Some (key_inf t)) /\
  (forall t, is_node t = true -> member_value G (cpp_name t) "sup" = Some (key_sup t)) /\
  (forall t a b, In t [TUuid; TEntityRef; THash; TPackageRef] -> val_ok t a -> val_ok t b ->
     ask_oper G CppText.Lt (cpp_name t) a b = Some (key_lt t a b) /\ ask_oper G EqEq (cpp_name t) a b = Some (key_eq t a b) /\
     ask_oper G BangEq (cpp_name t) a b = Some (negb (key_eq t a b)) /\ ask_hash G (cpp_name t) a = Some (key_hash t a)) /\
  (forall k a b,
     ask_default G (ref_name k) = Some (VP (ref_default k)) /\
     ask_build G false (ref_name k) (ref_name k) (VP a) = Some (VP (ref_copy a), VP a) /\
     ask_build G true (ref_name k) (ref_name k) (VP a) = Some (VP (ref_copy a), VP (ref_left k)) /\
     ask_assign G false (ref_name k) (VP a) (VP b) = Some (VP (ref_copy b), VP b) /\
     ask_assign G true (ref_name k) (VP a) (VP b) = Some (VP (ref_copy b), VP (ref_left k)) /\
     ask_convert G (ref_name k) "bool" (VP a) = Some (VB (ref_bool k a))).
(** The files of an entity that follows the entities [before] (C52): they compile, and their functions are those of the class the
    definition stands for. *)
Definition entity_says (W W' : CppSem.world) (before : list edef) (d : edef) (header source : list string) : Prop :=
  exists Wa T fs g, project W before = Some Wa /\ defines Wa d T fs /\ W' (ed_name d) = Some (SEntity fs) /\
    CppSem.load (ed_name d) header source = Some g /\ CppSem.compiles Wa g = true /\ forall I, means I Wa g T fs.
(** The entities form a project that can be generated for the classes of [W]. *)
Definition generable (W : CppSem.world) (defs : list edef) (W' : CppSem.world) : Prop :=
  project W defs = Some W' /\ names_free defs /\ (forall n, In n library_headers -> W n = None) /\
  (forall d, In d defs -> well_formed d /\ W (ed_name d) = None /\ ~ In (ed_name d) library_headers).
(** All files say what they must. *)
Definition project_says (l : list base_type) (W W' : CppSem.world) (defs : list edef) (fs : files) : Prop :=
  let at_ n x := seen fs ("../ISD/ISD_" ^^ n ^^ x) in
  writer_says l (at_ "EntityWriter" ".h") (at_ "EntityWriter" ".cpp") /\
  reader_says l (at_ "EntityReader" ".h") (at_ "EntityReader" ".cpp") /\
  dynamic_says l (at_ "DataTypes" ".h") (at_ "CombinedTypes" ".h") (at_ "CombinedTypes" ".cpp") (at_ "DynamicTypes" ".cpp") /\
  (l = isd_types -> data_says (at_ "DataTypes" ".h") (at_ "DataTypes" ".cpp") (at_ "DataValuePointers" ".h")) /\
  (forall before d after, defs = before ++ d :: after -> entity_says W W' before d (at_ (ed_name d) ".h") (at_ (ed_name d) ".cpp")).
