(** * GenRWAst: the generated functions as syntax. Computed from GenRW.v by the parser of CppFun.v (that they are what the parser
    gives is proved in GenRWParse.v). *)
From Coq Require Import Strings.String.
From Verif Require Import Base Types GenText CppText CppFun.
Local Open Scope string_scope.
Local Open Scope list_scope.

Definition a_w_over_none (T I : string) : spec :=
  Spec ["EntityWriter"; "Write"] (Ct [T] []) [Par true (Ct ["char"] []) ByPtr "key"; Par true (Ct ["u8"] []) ByValue
    "key_length"; Par true (Ct [T] []) ByRef "src_variable"] (Some (XSeq (XDecl true (Ct [I] []) false "tmp_variable" (Some
    (XName ["src_variable"] []))) (XSeq (XReturn (XCall (XArrow XThis "Write" [[Ct [I] []]]) [XName ["key"] []; XName
    ["key_length"] []; XName ["tmp_variable"] []])) XSkip))).
Definition a_r_over_none (T I : string) : spec :=
  Spec ["EntityReader"; "Read"] (Ct [T] []) [Par true (Ct ["char"] []) ByPtr "key"; Par true (Ct ["u8"] []) ByValue
    "key_length"; Par false (Ct [T] []) ByRef "dest_variable"] (Some (XSeq (XDecl false (Ct [I] []) false "tmp_variable" None)
    (XSeq (XIf (XNot (XCall (XArrow XThis "Read" [[Ct [I] []]]) [XName ["key"] []; XName ["key_length"] []; XName
    ["tmp_variable"] []])) (XReturn (XBool false)) XSkip) (XSeq (XExpr (XAssign (XName ["dest_variable"] []) (XCall (XName [T]
    []) [XName ["tmp_variable"] []]))) (XSeq (XReturn (XBool true)) XSkip))))).
Definition a_w_plain_none (V T : string) : spec :=
  Spec ["EntityWriter"; "Write"] (Ct [T] []) [Par true (Ct ["char"] []) ByPtr "key"; Par true (Ct ["u8"] []) ByValue
    "key_length"; Par true (Ct [T] []) ByRef "src_variable"] (Some (XSeq (XReturn (XCall (XName ["write_single_value"] [[Ct
    ["ValueType"; V] []]; [Ct [T] []]]) [XArrow XThis "dstream" []; XName ["key"] []; XName ["key_length"] []; XAddr (XName
    ["src_variable"] [])])) XSkip)).
Definition a_r_plain_none (V T : string) : spec :=
  Spec ["EntityReader"; "Read"] (Ct [T] []) [Par true (Ct ["char"] []) ByPtr "key"; Par true (Ct ["u8"] []) ByValue
    "key_length"; Par false (Ct [T] []) ByRef "dest_variable"] (Some (XSeq (XDecl false (Ct ["reader_status"] []) false "status"
    (Some (XCall (XName ["read_single_item"] [[Ct ["ValueType"; V] []]; [Ct [T] []]]) [XArrow XThis "sstream" []; XName ["key"]
    []; XName ["key_length"] []; XBool false; XAddr (XName ["dest_variable"] [])]))) (XSeq (XReturn (XNe (XName ["status"] [])
    (XName ["reader_status"; "fail"] []))) XSkip))).
Definition a_w_over_opt (T I : string) : spec :=
  Spec ["EntityWriter"; "Write"] (Ct ["optional_value"] [[Ct [T] []]]) [Par true (Ct ["char"] []) ByPtr "key"; Par true (Ct
    ["u8"] []) ByValue "key_length"; Par true (Ct ["optional_value"] [[Ct [T] []]]) ByRef "src_variable"] (Some (XSeq (XDecl
    false (Ct ["optional_value"] [[Ct [I] []]]) false "tmp_variable" None) (XSeq (XIf (XCall (XDot (XName ["src_variable"] [])
    "has_value") []) (XExpr (XCall (XDot (XName ["tmp_variable"] []) "set") [XCall (XDot (XName ["src_variable"] []) "value")
    []])) XSkip) (XSeq (XReturn (XCall (XArrow XThis "Write" [[Ct ["optional_value"] [[Ct [I] []]]]]) [XName ["key"] []; XName
    ["key_length"] []; XName ["tmp_variable"] []])) XSkip)))).
Definition a_r_over_opt (T I : string) : spec :=
  Spec ["EntityReader"; "Read"] (Ct ["optional_value"] [[Ct [T] []]]) [Par true (Ct ["char"] []) ByPtr "key"; Par true (Ct
    ["u8"] []) ByValue "key_length"; Par false (Ct ["optional_value"] [[Ct [T] []]]) ByRef "dest_variable"] (Some (XSeq (XDecl
    false (Ct ["optional_value"] [[Ct [I] []]]) false "tmp_variable" None) (XSeq (XIf (XNot (XCall (XArrow XThis "Read" [[Ct
    ["optional_value"] [[Ct [I] []]]]]) [XName ["key"] []; XName ["key_length"] []; XName ["tmp_variable"] []])) (XReturn (XBool
    false)) XSkip) (XSeq (XIf (XCall (XDot (XName ["tmp_variable"] []) "has_value") []) (XExpr (XCall (XDot (XName
    ["dest_variable"] []) "set") [XCall (XDot (XName ["tmp_variable"] []) "value") []])) (XExpr (XCall (XDot (XName
    ["dest_variable"] []) "reset") []))) (XSeq (XReturn (XBool true)) XSkip))))).
Definition a_w_plain_opt (V T : string) : spec :=
  Spec ["EntityWriter"; "Write"] (Ct ["optional_value"] [[Ct [T] []]]) [Par true (Ct ["char"] []) ByPtr "key"; Par true (Ct
    ["u8"] []) ByValue "key_length"; Par true (Ct ["optional_value"] [[Ct [T] []]]) ByRef "src_variable"] (Some (XSeq (XDecl
    true (Ct [T] []) true "p_src_variable" (Some (XCond (XCall (XDot (XName ["src_variable"] []) "has_value") []) (XAddr (XCall
    (XDot (XName ["src_variable"] []) "value") [])) XNull))) (XSeq (XReturn (XCall (XName ["write_single_value"] [[Ct
    ["ValueType"; V] []]; [Ct [T] []]]) [XArrow XThis "dstream" []; XName ["key"] []; XName ["key_length"] []; XName
    ["p_src_variable"] []])) XSkip))).
Definition a_r_plain_opt (V T : string) : spec :=
  Spec ["EntityReader"; "Read"] (Ct ["optional_value"] [[Ct [T] []]]) [Par true (Ct ["char"] []) ByPtr "key"; Par true (Ct
    ["u8"] []) ByValue "key_length"; Par false (Ct ["optional_value"] [[Ct [T] []]]) ByRef "dest_variable"] (Some (XSeq (XExpr
    (XCall (XDot (XName ["dest_variable"] []) "set") [])) (XSeq (XDecl false (Ct ["reader_status"] []) false "status" (Some
    (XCall (XName ["read_single_item"] [[Ct ["ValueType"; V] []]; [Ct [T] []]]) [XArrow XThis "sstream" []; XName ["key"] [];
    XName ["key_length"] []; XBool true; XAddr (XCall (XDot (XName ["dest_variable"] []) "value") [])]))) (XSeq (XIf (XEq (XName
    ["status"] []) (XName ["reader_status"; "success_empty"] [])) (XExpr (XCall (XDot (XName ["dest_variable"] []) "reset") []))
    XSkip) (XSeq (XReturn (XNe (XName ["status"] []) (XName ["reader_status"; "fail"] []))) XSkip))))).
Definition a_w_over_vec (T I : string) : spec :=
  Spec ["EntityWriter"; "Write"] (Ct ["std"; "vector"] [[Ct [T] []]]) [Par true (Ct ["char"] []) ByPtr "key"; Par true (Ct
    ["u8"] []) ByValue "key_length"; Par true (Ct ["std"; "vector"] [[Ct [T] []]]) ByRef "src_variable"] (Some (XSeq (XDecl
    false (Ct ["std"; "vector"] [[Ct [I] []]]) false "tmp_variable" None) (XSeq (XExpr (XCall (XDot (XName ["tmp_variable"] [])
    "reserve") [XCall (XDot (XName ["src_variable"] []) "size") []])) (XSeq (XExpr (XCall (XName ["std"; "copy"] []) [XCall
    (XDot (XName ["src_variable"] []) "begin") []; XCall (XDot (XName ["src_variable"] []) "end") []; XCall (XName ["std";
    "back_inserter"] []) [XName ["tmp_variable"] []]])) (XSeq (XReturn (XCall (XArrow XThis "Write" [[Ct ["std"; "vector"] [[Ct
    [I] []]]]]) [XName ["key"] []; XName ["key_length"] []; XName ["tmp_variable"] []])) XSkip))))).
Definition a_r_over_vec (T I : string) : spec :=
  Spec ["EntityReader"; "Read"] (Ct ["std"; "vector"] [[Ct [T] []]]) [Par true (Ct ["char"] []) ByPtr "key"; Par true (Ct ["u8"]
    []) ByValue "key_length"; Par false (Ct ["std"; "vector"] [[Ct [T] []]]) ByRef "dest_variable"] (Some (XSeq (XDecl false (Ct
    ["std"; "vector"] [[Ct [I] []]]) false "tmp_variable" None) (XSeq (XIf (XNot (XCall (XArrow XThis "Read" [[Ct ["std";
    "vector"] [[Ct [I] []]]]]) [XName ["key"] []; XName ["key_length"] []; XName ["tmp_variable"] []])) (XReturn (XBool false))
    XSkip) (XSeq (XExpr (XCall (XDot (XName ["dest_variable"] []) "reserve") [XCall (XDot (XName ["tmp_variable"] []) "size")
    []])) (XSeq (XFor "i" (XCall (XDot (XName ["tmp_variable"] []) "size") []) (XExpr (XCall (XDot (XName ["dest_variable"] [])
    "emplace_back") [XCall (XName [T] []) [XIndex (XName ["tmp_variable"] []) (XName ["i"] [])]]))) (XSeq (XReturn (XBool true))
    XSkip)))))).
Definition a_w_plain_vec (V T : string) : spec :=
  Spec ["EntityWriter"; "Write"] (Ct ["std"; "vector"] [[Ct [T] []]]) [Par true (Ct ["char"] []) ByPtr "key"; Par true (Ct
    ["u8"] []) ByValue "key_length"; Par true (Ct ["std"; "vector"] [[Ct [T] []]]) ByRef "src_variable"] (Some (XSeq (XReturn
    (XCall (XName ["write_array"] [[Ct ["ValueType"; V] []]; [Ct [T] []]]) [XArrow XThis "dstream" []; XName ["key"] []; XName
    ["key_length"] []; XAddr (XName ["src_variable"] []); XNull])) XSkip)).
Definition a_r_plain_vec (V A T : string) : spec :=
  Spec ["EntityReader"; "Read"] (Ct ["std"; "vector"] [[Ct [T] []]]) [Par true (Ct ["char"] []) ByPtr "key"; Par true (Ct ["u8"]
    []) ByValue "key_length"; Par false (Ct ["std"; "vector"] [[Ct [T] []]]) ByRef "dest_variable"] (Some (XSeq (XDecl false (Ct
    ["reader_status"] []) false "status" (Some (XCall (XName ["read_array"] [[Ct ["ValueType"; A] []]; [Ct [T] []]]) [XArrow
    XThis "sstream" []; XName ["key"] []; XName ["key_length"] []; XBool false; XAddr (XName ["dest_variable"] []); XNull])))
    (XSeq (XReturn (XNe (XName ["status"] []) (XName ["reader_status"; "fail"] []))) XSkip))).
Definition a_w_over_optvec (T I : string) : spec :=
  Spec ["EntityWriter"; "Write"] (Ct ["optional_vector"] [[Ct [T] []]]) [Par true (Ct ["char"] []) ByPtr "key"; Par true (Ct
    ["u8"] []) ByValue "key_length"; Par true (Ct ["optional_vector"] [[Ct [T] []]]) ByRef "src_variable"] (Some (XSeq (XDecl
    false (Ct ["optional_vector"] [[Ct [I] []]]) false "tmp_variable" None) (XSeq (XIf (XCall (XDot (XName ["src_variable"] [])
    "has_value") []) (XBlock (XSeq (XExpr (XCall (XDot (XName ["tmp_variable"] []) "set") [])) (XSeq (XExpr (XCall (XDot (XCall
    (XDot (XName ["tmp_variable"] []) "values") []) "reserve") [XCall (XDot (XCall (XDot (XName ["src_variable"] []) "values")
    []) "size") []])) (XSeq (XExpr (XCall (XName ["std"; "copy"] []) [XCall (XDot (XCall (XDot (XName ["src_variable"] [])
    "values") []) "begin") []; XCall (XDot (XCall (XDot (XName ["src_variable"] []) "values") []) "end") []; XCall (XName
    ["std"; "back_inserter"] []) [XCall (XDot (XName ["tmp_variable"] []) "values") []]])) XSkip)))) XSkip) (XSeq (XReturn
    (XCall (XArrow XThis "Write" [[Ct ["optional_vector"] [[Ct [I] []]]]]) [XName ["key"] []; XName ["key_length"] []; XName
    ["tmp_variable"] []])) XSkip)))).
Definition a_r_over_optvec (T I : string) : spec :=
  Spec ["EntityReader"; "Read"] (Ct ["optional_vector"] [[Ct [T] []]]) [Par true (Ct ["char"] []) ByPtr "key"; Par true (Ct
    ["u8"] []) ByValue "key_length"; Par false (Ct ["optional_vector"] [[Ct [T] []]]) ByRef "dest_variable"] (Some (XSeq (XDecl
    false (Ct ["optional_vector"] [[Ct [I] []]]) false "tmp_variable" None) (XSeq (XIf (XNot (XCall (XArrow XThis "Read" [[Ct
    ["optional_vector"] [[Ct [I] []]]]]) [XName ["key"] []; XName ["key_length"] []; XName ["tmp_variable"] []])) (XReturn
    (XBool false)) XSkip) (XSeq (XIf (XCall (XDot (XName ["tmp_variable"] []) "has_value") []) (XBlock (XSeq (XExpr (XCall (XDot
    (XName ["dest_variable"] []) "set") [])) (XSeq (XExpr (XCall (XDot (XCall (XDot (XName ["dest_variable"] []) "values") [])
    "reserve") [XCall (XDot (XCall (XDot (XName ["tmp_variable"] []) "values") []) "size") []])) (XSeq (XFor "i" (XCall (XDot
    (XCall (XDot (XName ["tmp_variable"] []) "values") []) "size") []) (XExpr (XCall (XDot (XCall (XDot (XName ["dest_variable"]
    []) "values") []) "emplace_back") [XCall (XName [T] []) [XIndex (XCall (XDot (XName ["tmp_variable"] []) "values") [])
    (XName ["i"] [])]]))) XSkip)))) (XBlock (XSeq (XExpr (XCall (XDot (XName ["dest_variable"] []) "reset") [])) XSkip))) (XSeq
    (XReturn (XBool true)) XSkip))))).
Definition a_w_plain_optvec (V T : string) : spec :=
  Spec ["EntityWriter"; "Write"] (Ct ["optional_vector"] [[Ct [T] []]]) [Par true (Ct ["char"] []) ByPtr "key"; Par true (Ct
    ["u8"] []) ByValue "key_length"; Par true (Ct ["optional_vector"] [[Ct [T] []]]) ByRef "src_variable"] (Some (XSeq (XDecl
    true (Ct ["std"; "vector"] [[Ct [T] []]]) true "p_src_variable" (Some (XCond (XCall (XDot (XName ["src_variable"] [])
    "has_value") []) (XAddr (XCall (XDot (XName ["src_variable"] []) "values") [])) XNull))) (XSeq (XReturn (XCall (XName
    ["write_array"] [[Ct ["ValueType"; V] []]; [Ct [T] []]]) [XArrow XThis "dstream" []; XName ["key"] []; XName ["key_length"]
    []; XName ["p_src_variable"] []; XNull])) XSkip))).
Definition a_r_plain_optvec (V A T : string) : spec :=
  Spec ["EntityReader"; "Read"] (Ct ["optional_vector"] [[Ct [T] []]]) [Par true (Ct ["char"] []) ByPtr "key"; Par true (Ct
    ["u8"] []) ByValue "key_length"; Par false (Ct ["optional_vector"] [[Ct [T] []]]) ByRef "dest_variable"] (Some (XSeq (XExpr
    (XCall (XDot (XName ["dest_variable"] []) "set") [])) (XSeq (XDecl false (Ct ["reader_status"] []) false "status" (Some
    (XCall (XName ["read_array"] [[Ct ["ValueType"; A] []]; [Ct [T] []]]) [XArrow XThis "sstream" []; XName ["key"] []; XName
    ["key_length"] []; XBool true; XAddr (XCall (XDot (XName ["dest_variable"] []) "values") []); XNull]))) (XSeq (XIf (XEq
    (XName ["status"] []) (XName ["reader_status"; "success_empty"] [])) (XExpr (XCall (XDot (XName ["dest_variable"] [])
    "reset") [])) XSkip) (XSeq (XReturn (XNe (XName ["status"] []) (XName ["reader_status"; "fail"] []))) XSkip))))).
Definition a_w_over_idx (T I : string) : spec :=
  Spec ["EntityWriter"; "Write"] (Ct ["idx_vector"] [[Ct [T] []]]) [Par true (Ct ["char"] []) ByPtr "key"; Par true (Ct ["u8"]
    []) ByValue "key_length"; Par true (Ct ["idx_vector"] [[Ct [T] []]]) ByRef "src_variable"] (Some (XSeq (XDecl false (Ct
    ["idx_vector"] [[Ct [I] []]]) false "tmp_variable" None) (XSeq (XExpr (XCall (XDot (XCall (XDot (XName ["tmp_variable"] [])
    "index") []) "reserve") [XCall (XDot (XCall (XDot (XName ["src_variable"] []) "index") []) "size") []])) (XSeq (XExpr (XCall
    (XDot (XCall (XDot (XName ["tmp_variable"] []) "values") []) "reserve") [XCall (XDot (XCall (XDot (XName ["src_variable"]
    []) "values") []) "size") []])) (XSeq (XExpr (XCall (XName ["std"; "copy"] []) [XCall (XDot (XCall (XDot (XName
    ["src_variable"] []) "index") []) "begin") []; XCall (XDot (XCall (XDot (XName ["src_variable"] []) "index") []) "end") [];
    XCall (XName ["std"; "back_inserter"] []) [XCall (XDot (XName ["tmp_variable"] []) "index") []]])) (XSeq (XExpr (XCall
    (XName ["std"; "copy"] []) [XCall (XDot (XCall (XDot (XName ["src_variable"] []) "values") []) "begin") []; XCall (XDot
    (XCall (XDot (XName ["src_variable"] []) "values") []) "end") []; XCall (XName ["std"; "back_inserter"] []) [XCall (XDot
    (XName ["tmp_variable"] []) "values") []]])) (XSeq (XReturn (XCall (XArrow XThis "Write" [[Ct ["idx_vector"] [[Ct [I]
    []]]]]) [XName ["key"] []; XName ["key_length"] []; XName ["tmp_variable"] []])) XSkip))))))).
Definition a_r_over_idx (T I : string) : spec :=
  Spec ["EntityReader"; "Read"] (Ct ["idx_vector"] [[Ct [T] []]]) [Par true (Ct ["char"] []) ByPtr "key"; Par true (Ct ["u8"]
    []) ByValue "key_length"; Par false (Ct ["idx_vector"] [[Ct [T] []]]) ByRef "dest_variable"] (Some (XSeq (XDecl false (Ct
    ["idx_vector"] [[Ct [I] []]]) false "tmp_variable" None) (XSeq (XIf (XNot (XCall (XArrow XThis "Read" [[Ct ["idx_vector"]
    [[Ct [I] []]]]]) [XName ["key"] []; XName ["key_length"] []; XName ["tmp_variable"] []])) (XReturn (XBool false)) XSkip)
    (XSeq (XExpr (XAssign (XCall (XDot (XName ["dest_variable"] []) "index") []) (XCall (XName ["std"; "move"] []) [XCall (XDot
    (XName ["tmp_variable"] []) "index") []]))) (XSeq (XExpr (XCall (XDot (XCall (XDot (XName ["dest_variable"] []) "values")
    []) "reserve") [XCall (XDot (XCall (XDot (XName ["tmp_variable"] []) "values") []) "size") []])) (XSeq (XFor "i" (XCall
    (XDot (XCall (XDot (XName ["tmp_variable"] []) "values") []) "size") []) (XExpr (XCall (XDot (XCall (XDot (XName
    ["dest_variable"] []) "values") []) "emplace_back") [XCall (XName [T] []) [XIndex (XCall (XDot (XName ["tmp_variable"] [])
    "values") []) (XName ["i"] [])]]))) (XSeq (XReturn (XBool true)) XSkip))))))).
Definition a_w_plain_idx (V T : string) : spec :=
  Spec ["EntityWriter"; "Write"] (Ct ["idx_vector"] [[Ct [T] []]]) [Par true (Ct ["char"] []) ByPtr "key"; Par true (Ct ["u8"]
    []) ByValue "key_length"; Par true (Ct ["idx_vector"] [[Ct [T] []]]) ByRef "src_variable"] (Some (XSeq (XReturn (XCall
    (XName ["write_array"] [[Ct ["ValueType"; V] []]; [Ct [T] []]]) [XArrow XThis "dstream" []; XName ["key"] []; XName
    ["key_length"] []; XAddr (XCall (XDot (XName ["src_variable"] []) "values") []); XAddr (XCall (XDot (XName ["src_variable"]
    []) "index") [])])) XSkip)).
Definition a_r_plain_idx (V A T : string) : spec :=
  Spec ["EntityReader"; "Read"] (Ct ["idx_vector"] [[Ct [T] []]]) [Par true (Ct ["char"] []) ByPtr "key"; Par true (Ct ["u8"]
    []) ByValue "key_length"; Par false (Ct ["idx_vector"] [[Ct [T] []]]) ByRef "dest_variable"] (Some (XSeq (XDecl false (Ct
    ["reader_status"] []) false "status" (Some (XCall (XName ["read_array"] [[Ct ["ValueType"; A] []]; [Ct [T] []]]) [XArrow
    XThis "sstream" []; XName ["key"] []; XName ["key_length"] []; XBool false; XAddr (XCall (XDot (XName ["dest_variable"] [])
    "values") []); XAddr (XCall (XDot (XName ["dest_variable"] []) "index") [])]))) (XSeq (XReturn (XNe (XName ["status"] [])
    (XName ["reader_status"; "fail"] []))) XSkip))).
Definition a_w_over_optidx (T I : string) : spec :=
  Spec ["EntityWriter"; "Write"] (Ct ["optional_idx_vector"] [[Ct [T] []]]) [Par true (Ct ["char"] []) ByPtr "key"; Par true (Ct
    ["u8"] []) ByValue "key_length"; Par true (Ct ["optional_idx_vector"] [[Ct [T] []]]) ByRef "src_variable"] (Some (XSeq
    (XDecl false (Ct ["optional_idx_vector"] [[Ct [I] []]]) false "tmp_variable" None) (XSeq (XIf (XCall (XDot (XName
    ["src_variable"] []) "has_value") []) (XBlock (XSeq (XExpr (XCall (XDot (XName ["tmp_variable"] []) "set") [])) (XSeq (XExpr
    (XCall (XDot (XCall (XDot (XName ["tmp_variable"] []) "index") []) "reserve") [XCall (XDot (XCall (XDot (XName
    ["src_variable"] []) "index") []) "size") []])) (XSeq (XExpr (XCall (XDot (XCall (XDot (XName ["tmp_variable"] []) "values")
    []) "reserve") [XCall (XDot (XCall (XDot (XName ["src_variable"] []) "values") []) "size") []])) (XSeq (XExpr (XCall (XName
    ["std"; "copy"] []) [XCall (XDot (XCall (XDot (XName ["src_variable"] []) "index") []) "begin") []; XCall (XDot (XCall (XDot
    (XName ["src_variable"] []) "index") []) "end") []; XCall (XName ["std"; "back_inserter"] []) [XCall (XDot (XName
    ["tmp_variable"] []) "index") []]])) (XSeq (XExpr (XCall (XName ["std"; "copy"] []) [XCall (XDot (XCall (XDot (XName
    ["src_variable"] []) "values") []) "begin") []; XCall (XDot (XCall (XDot (XName ["src_variable"] []) "values") []) "end")
    []; XCall (XName ["std"; "back_inserter"] []) [XCall (XDot (XName ["tmp_variable"] []) "values") []]])) XSkip)))))) XSkip)
    (XSeq (XReturn (XCall (XArrow XThis "Write" [[Ct ["optional_idx_vector"] [[Ct [I] []]]]]) [XName ["key"] []; XName
    ["key_length"] []; XName ["tmp_variable"] []])) XSkip)))).
Definition a_r_over_optidx (T I : string) : spec :=
  Spec ["EntityReader"; "Read"] (Ct ["optional_idx_vector"] [[Ct [T] []]]) [Par true (Ct ["char"] []) ByPtr "key"; Par true (Ct
    ["u8"] []) ByValue "key_length"; Par false (Ct ["optional_idx_vector"] [[Ct [T] []]]) ByRef "dest_variable"] (Some (XSeq
    (XDecl false (Ct ["optional_idx_vector"] [[Ct [I] []]]) false "tmp_variable" None) (XSeq (XIf (XNot (XCall (XArrow XThis
    "Read" [[Ct ["optional_idx_vector"] [[Ct [I] []]]]]) [XName ["key"] []; XName ["key_length"] []; XName ["tmp_variable"]
    []])) (XReturn (XBool false)) XSkip) (XSeq (XIf (XCall (XDot (XName ["tmp_variable"] []) "has_value") []) (XBlock (XSeq
    (XExpr (XCall (XDot (XName ["dest_variable"] []) "set") [])) (XSeq (XExpr (XAssign (XCall (XDot (XName ["dest_variable"] [])
    "index") []) (XCall (XName ["std"; "move"] []) [XCall (XDot (XName ["tmp_variable"] []) "index") []]))) (XSeq (XExpr (XCall
    (XDot (XCall (XDot (XName ["dest_variable"] []) "values") []) "reserve") [XCall (XDot (XCall (XDot (XName ["tmp_variable"]
    []) "values") []) "size") []])) (XSeq (XFor "i" (XCall (XDot (XCall (XDot (XName ["tmp_variable"] []) "values") []) "size")
    []) (XExpr (XCall (XDot (XCall (XDot (XName ["dest_variable"] []) "values") []) "emplace_back") [XCall (XName [T] [])
    [XIndex (XCall (XDot (XName ["tmp_variable"] []) "values") []) (XName ["i"] [])]]))) XSkip))))) (XBlock (XSeq (XExpr (XCall
    (XDot (XName ["dest_variable"] []) "reset") [])) XSkip))) (XSeq (XReturn (XBool true)) XSkip))))).
Definition a_w_plain_optidx (V T : string) : spec :=
  Spec ["EntityWriter"; "Write"] (Ct ["optional_idx_vector"] [[Ct [T] []]]) [Par true (Ct ["char"] []) ByPtr "key"; Par true (Ct
    ["u8"] []) ByValue "key_length"; Par true (Ct ["optional_idx_vector"] [[Ct [T] []]]) ByRef "src_variable"] (Some (XSeq
    (XDecl true (Ct ["std"; "vector"] [[Ct [T] []]]) true "p_src_values" (Some (XCond (XCall (XDot (XName ["src_variable"] [])
    "has_value") []) (XAddr (XCall (XDot (XName ["src_variable"] []) "values") [])) XNull))) (XSeq (XDecl true (Ct ["std";
    "vector"] [[Ct ["i32"] []]]) true "p_src_index" (Some (XCond (XCall (XDot (XName ["src_variable"] []) "has_value") [])
    (XAddr (XCall (XDot (XName ["src_variable"] []) "index") [])) XNull))) (XSeq (XReturn (XCall (XName ["write_array"] [[Ct
    ["ValueType"; V] []]; [Ct [T] []]]) [XArrow XThis "dstream" []; XName ["key"] []; XName ["key_length"] []; XName
    ["p_src_values"] []; XName ["p_src_index"] []])) XSkip)))).
Definition a_r_plain_optidx (V A T : string) : spec :=
  Spec ["EntityReader"; "Read"] (Ct ["optional_idx_vector"] [[Ct [T] []]]) [Par true (Ct ["char"] []) ByPtr "key"; Par true (Ct
    ["u8"] []) ByValue "key_length"; Par false (Ct ["optional_idx_vector"] [[Ct [T] []]]) ByRef "dest_variable"] (Some (XSeq
    (XExpr (XCall (XDot (XName ["dest_variable"] []) "set") [])) (XSeq (XDecl false (Ct ["reader_status"] []) false "status"
    (Some (XCall (XName ["read_array"] [[Ct ["ValueType"; A] []]; [Ct [T] []]]) [XArrow XThis "sstream" []; XName ["key"] [];
    XName ["key_length"] []; XBool true; XAddr (XCall (XDot (XName ["dest_variable"] []) "values") []); XAddr (XCall (XDot
    (XName ["dest_variable"] []) "index") [])]))) (XSeq (XIf (XEq (XName ["status"] []) (XName ["reader_status";
    "success_empty"] [])) (XExpr (XCall (XDot (XName ["dest_variable"] []) "reset") [])) XSkip) (XSeq (XReturn (XNe (XName
    ["status"] []) (XName ["reader_status"; "fail"] []))) XSkip))))).
