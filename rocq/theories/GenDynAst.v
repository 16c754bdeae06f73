(** * GenDynAst: the generated table of dynamic types, as syntax (for the proofs about the text, see GenDynParse.v). *)
From Coq Require Import Strings.String Strings.Ascii.
From Verif Require Import Base Types CppText GenText GenRW CppFun GenDyn CppDyn GenTypes GenDynSpec.
Local Open Scope string_scope.
Local Open Scope list_scope.

(** Names and types. *)
Definition cls_name (T : string) (c : ctype) : string := "_dt_" ^^ T ^^ "_ct_" ^^ ct_name c ^^ "_DynamicTypeClass".
Definition obj_name (T : string) (c : ctype) : string := "_dt_" ^^ T ^^ "_ct_" ^^ ct_name c ^^ "_DynamicTypeObject".
Definition combo_type (T : string) (c : ctype) : cty := match c with CtNone => Ct [T] [] | _ => Ct [ct_name c] [[Ct [T] []]] end.
Definition one (s : dstmt) : option dstmt := Some (TSeq s TSkip).
Definition tvoid : cty := Ct ["void"] [].
Definition tbool : cty := Ct ["bool"] [].
Definition tcombo : cty := Ct ["type_combo"] [].
Definition pptr (k : bool) (x : string) : param := Par k tvoid ByPtr x.
Definition pkey : list param := [Par true (Ct ["char"] []) ByPtr "key"; Par true (Ct ["u8"] []) ByValue "key_length"].
Definition obj_at (k : bool) (t : cty) (x : string) : dexpr := DDeref (DCast k t true (DName [x])).
(** The member functions; no body: pure. *)
Definition methods (body : string -> option dstmt) : list meth :=
  [ Me false tcombo ByValue "Type" [] (body "Type");
    Me false tvoid ByPtr "New" [] (body "New");
    Me false tvoid ByValue "Delete" [pptr false "data"] (body "Delete");
    Me false tvoid ByValue "Clear" [pptr false "data"] (body "Clear");
    Me false tbool ByValue "Write" (pkey ++ [Par false (Ct ["EntityWriter"] []) ByRef "writer"; pptr true "data"]) (body "Write");
    Me false tbool ByValue "Read" (pkey ++ [Par false (Ct ["EntityReader"] []) ByRef "reader"; pptr false "data"]) (body "Read");
    Me false tvoid ByValue "Copy" [pptr false "dest"; pptr true "src"] (body "Copy");
    Me false tbool ByValue "Equals" [pptr true "dataA"; pptr true "dataB"] (body "Equals") ].
Definition info_of (t : cty) (f : string) : dexpr := DStat "combined_type_information" t f.
Definition bodies (t : cty) (f : string) : option dstmt :=
  if streqb f "Type" then one (TReturn (DBraces [info_of t "type_index"; info_of t "container_index"])) else
  if streqb f "New" then one (TReturn (DNew t)) else
  if streqb f "Delete" then one (TDelete (DCast false t true (DName ["data"]))) else
  if streqb f "Clear" then one (TExpr (DCall "clear_combined_type" [obj_at false t "data"])) else
  if streqb f "Write" then one (TReturn (DMethod (DName ["writer"]) "Write" [[t]] [DName ["key"]; DName ["key_length"]; obj_at true t "data"])) else
  if streqb f "Read" then one (TReturn (DMethod (DName ["reader"]) "Read" [[t]] [DName ["key"]; DName ["key_length"]; obj_at false t "data"])) else
  if streqb f "Copy" then one (TExpr (DAssign (obj_at false t "dest") (obj_at true t "src"))) else
  if streqb f "Equals" then one (TReturn (DOp OEq (obj_at true t "dataA") (obj_at true t "dataB"))) else None.
Definition a_class (T : string) (c : ctype) : ddecl :=
  DObject (cls_name T c) "_dynamicTypeClass" (methods (bodies (combo_type T c))) (obj_name T c).
Definition a_struct : ddecl :=
  DStruct "type_combo" [(Ct ["data_type_index"] [], "data_type"); (Ct ["container_type_index"] [], "container_type")] (Par true tcombo ByRef "other")
    (TSeq (TReturn (DOp OAnd (DOp OEq (DField (DName ["other"]) "data_type") (DThis "data_type"))
                             (DOp OEq (DField (DName ["other"]) "container_type") (DThis "container_type")))) TSkip).
Definition a_abstract : ddecl := DAbstract "_dynamicTypeClass" (methods (fun _ => None)).
(** The constants and the function clear_combined_type. *)
Definition a_info (T : string) (c : ctype) : info :=
  Info "combined_type_information" (combo_type T c)
    [("type_index", (Ct ["data_type_index"] [], ["data_type_index"; "dt_" ^^ T]));
     ("container_index", (Ct ["container_type_index"] [], ["container_type_index"; "ct_" ^^ ct_name c]))].
Definition a_clear (T : string) (c : ctype) : special :=
  Special "clear_combined_type" (combo_type T c) [Par false (combo_type T c) ByRef "type"]
    (TSeq (TExpr match c with
                 | CtNone => DAssign (DName ["type"]) (DStat "data_type_information" (combo_type T c) "zero")
                 | CtVec | CtIdx => DMethod (DName ["type"]) "clear" [] []
                 | _ => DMethod (DName ["type"]) "reset" [] []
                 end) TSkip).
(** The table. *)
Definition slot_object (x : option (entry string ctype)) : option string :=
  match x with Some e => Some (obj_name (en_variant e) (en_container e)) | None => None end.
Definition a_table (tab : gtable string ctype) : ddecl := DTable "_dynamicTypeClass" "_dynamicTypeClassHashTable" 577 (map slot_object tab).
(** The functions. *)
Definition one_slot : dexpr := DIndex (DName ["_dynamicTypeClassHashTable"]) (DName ["hashValue"]).
Definition find_round : dstmt :=
  TBlock (TSeq (TDecl false tcombo ByValue "type" (DVirtual one_slot "Type" []))
         (TSeq (TIf (DOp OEq (DName ["type"]) (DName ["typeCombo"])) (TReturn one_slot))
         (TSeq (TExpr (DInc (DName ["hashValue"])))
         (TSeq (TIf (DOp OGe (DName ["hashValue"]) (DNum 577)) (TExpr (DAssign (DName ["hashValue"]) (DNum 0)))) TSkip)))).
Definition id_number (f : string) : dexpr := DCast false (Ct ["size_t"] []) false (DField (DName ["typeCombo"]) f).
Definition a_find : ddecl :=
  DFun true (Ct ["_dynamicTypeClass"] []) ByPtr "_findTypeClass" [Par false tcombo ByValue "typeCombo"]
    (TSeq (TDecl false (Ct ["size_t"] []) ByValue "hashValue"
             (DOp OMod (DOp OAdd (DOp OMul (id_number "data_type") (DNum 109)) (DOp OMul (id_number "container_type") (DNum 991))) (DNum 577)))
    (TSeq (TWhile (DOp ONe one_slot DNull) find_round)
    (TSeq TSkip (TSeq (TReturn DNull) TSkip)))).
Definition a_functions : list ddecl :=
  Eval vm_compute in match pmany pditem 100 (tokens dyn_functions) with Some (ds, _) => ds | None => [] end.

(** All combinations. *)
Definition containers6 : list ctype := [CtNone; CtOpt; CtVec; CtOptVec; CtIdx; CtOptIdx].
Definition all_combos {A} (l : list base_type) (f : string -> ctype -> A) : list A :=
  flat_map (fun n => map (f n) containers6) (type_names_of l).
Definition a_enum (l : list base_type) : enumeration := ("data_type_index", map (fun x => ("dt_" ^^ snd x, fst x)) (type_enum (by_base l))).
Definition a_containers : enumeration := ("container_type_index", map (fun c => ("ct_" ^^ ct_name c, ct_id c)) containers6).
Definition a_program (l : list base_type) (tab : gtable string ctype) : program :=
  Prog [a_enum l; a_containers] (all_combos l a_info) (all_combos l a_clear)
    (a_struct :: a_abstract :: all_combos l a_class ++ a_table tab :: a_find :: a_functions).
