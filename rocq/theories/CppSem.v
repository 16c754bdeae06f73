(** * CppSem: what the C++ text of an entity class means. The class a header declares, whether the files compile, and
    what the functions in them do, for the part of C++ CppText.v reads. The functions of the library the text calls are
    those of EntityGen.v, Sections.v, ... The rules are those of the C++ standard for this part of the language; they
    have no counterpart in /repo (see DESIGN.md). *)
From Coq Require Import Strings.String Strings.Ascii.
From Verif Require Import Base Bytes Values Streams Types EntityWriter EntityReader Sections Validator Keys KeySpec Containers
  ValueEq StdSet Graph Classes Table IndexedVector DynTypes Varying EntityGen GenText CppText.
Local Open Scope string_scope.
Local Open Scope list_scope.

(** ** Names and types *)
Definition streqb := String.eqb.
Definition has (n : string) (l : list string) : bool := existsb (streqb n) l.
(** The header a class or a class template X is declared in (file names: EntityGenerator.py:123,306). *)
Definition file_of (n : string) : string := "ISD_" ^^ n ^^ ".h".

(** What the other headers declare: the classes, by name. *)
Definition world := string -> option schema.

(** A data type that can be a key, with the operations of its keys (Keys.v, EntityGen.v). *)
Definition ktype_of (t : dtype) : option ktype :=
  match bool_dec (is_key t) true, bool_dec (key_okb t (key_inf t)) true, bool_dec (key_okb t (key_sup t)) true with
  | left a, left b, left c => Some (KeyT t a b c)
  | _, _, _ => None
  end.
(** The flags of a DirectedGraph and of an EntityTable (ISD/ISD_DirectedGraph.h:14-19, ISD/ISD_EntityTable.h:10-14). *)
Fixpoint graph_flags (f : gflags) (l : list cty) : option gflags :=
  match l with
  | [] => Some f
  | Ct [e; n] [] :: r =>
    if negb (streqb e "DirectedGraphFlags") then None else
    if streqb n "Acyclic" then graph_flags (GFlags true (f_rooted f) (f_single f)) r else
    if streqb n "Rooted" then graph_flags (GFlags (f_acyclic f) true (f_single f)) r else
    if streqb n "SingleRoot" then graph_flags (GFlags (f_acyclic f) (f_rooted f) true) r else None
  | _ => None
  end.
Fixpoint table_flags (f : tflags) (l : list cty) : option tflags :=
  match l with
  | [] => Some f
  | Ct [e; n] [] :: r =>
    if negb (streqb e "RegistryFlags") then None else
    if streqb n "ZeroKeys" then table_flags (TFlags false (no_null_entities f)) r else
    if streqb n "NullEntities" then table_flags (TFlags (no_zero_keys f) false) r else None
  | _ => None
  end.
Definition key_name (k : cty) : option ktype :=
  match k with Ct [n] [] => match base_type_variant n with Some t => ktype_of t | None => None end | _ => None end.
(** The class a type names. [G]: the classes and class templates visible at this point (by name); [T]: the typedefs of the
    enclosing class, which hide them. *)
Section Resolve.
Context (W : world) (G : string -> bool) (T : list (string * schema)).
Fixpoint class_type (c : cty) : option schema :=
  match c with
  | Ct [n] [] => match assoc n T with Some s => Some s | None => if G n then W n else None end
  | Ct [n] [[k]] =>
    if negb (G n) then None else
    if streqb n "DirectedGraph" then
      match key_name k with
      | Some kt0 => if is_node (kt kt0) then Some (SGraph kt0 (GFlags false false false)) else None
      | None => None
      end
    else if streqb n "IndexedVector" then
      match k with Ct [m] [] => match base_type_variant m with Some t => Some (SIdx t) | None => None end | _ => None end
    else None
  | Ct [n] [[k]; [v]] =>
    if negb (G n) then None else
    if streqb n "EntityTable" then
      match key_name k, class_type v with Some kt0, Some s => Some (STable kt0 (TFlags true true) s) | _, _ => None end
    else if streqb n "DirectedGraph" then
      match key_name k, graph_flags (GFlags false false false) [v] with
      | Some kt0, Some f => if is_node (kt kt0) then Some (SGraph kt0 f) else None
      | _, _ => None
      end
    else None
  | Ct [n] [[k]; fl] =>
    if negb (G n) then None else
    if streqb n "DirectedGraph" then
      match key_name k, graph_flags (GFlags false false false) fl with
      | Some kt0, Some f => if is_node (kt kt0) then Some (SGraph kt0 f) else None
      | _, _ => None
      end
    else None
  | Ct [n] [[k]; [v]; fl] =>
    if negb (G n) then None else
    if streqb n "EntityTable" then
      match key_name k, class_type v, table_flags (TFlags true true) fl with
      | Some kt0, Some s, Some f => Some (STable kt0 f s)
      | _, _, _ => None
      end
    else None
  | _ => None
  end.
End Resolve.

(** The type of a variable: a data type in a container; a class; an optional_value of a class; anything else. KSelf is the
    class being compiled. *)
Inductive fkind := KBase (t : dtype) (c : ctype) | KCls (n : string) | KOpt (n : string) | KOther | KSelf.
Definition containers : list (list string * ctype) :=
  [ (["optional_value"], CtOpt); (["std"; "vector"], CtVec); (["optional_vector"], CtOptVec); (["idx_vector"], CtIdx);
    (["optional_idx_vector"], CtOptIdx) ].
Definition container_of (q : list string) : option ctype :=
  match q with
  | [n] => if streqb n "optional_value" then Some CtOpt else if streqb n "optional_vector" then Some CtOptVec else
           if streqb n "idx_vector" then Some CtIdx else if streqb n "optional_idx_vector" then Some CtOptIdx else None
  | [m; n] => if streqb m "std" && streqb n "vector" then Some CtVec else None
  | _ => None
  end.
(** [T]: the typedefs of the class, which hide the names outside it. *)
Definition kind_of (T : list string) (c : cty) : fkind :=
  match c with
  | Ct [n] [] => if has n T then KCls n else match base_type_variant n with Some t => KBase t CtNone | None => KCls n end
  | Ct q [[Ct [n] []]] =>
    match container_of q with
    | None => KOther
    | Some k =>
      match (if has n T then None else base_type_variant n), k with
      | Some t, _ => KBase t k
      | None, CtOpt => KOpt n
      | None, _ => KOther
      end
    end
  | _ => KOther
  end.
Definition kind_eqb (a b : fkind) : bool :=
  match a, b with
  | KBase t c, KBase u d => (if dtype_dec t u then true else false) && (if ctype_dec c d then true else false)
  | KCls n, KCls m => streqb n m
  | KOpt n, KOpt m => streqb n m
  | KSelf, KSelf => true
  | _, _ => false
  end.

(** ** The class *)
(** A function definition or declaration. *)
Record func := Fn { f_ret : option (bool * rty * pass); f_name : fname; f_params : list param; f_const : bool; f_body : fbody }.
Definition func_of (i : item) : list func := match i with IFun r n ps c b => [Fn r n ps c b] | _ => [] end.
Definition funcs (l : list item) : list func := flat_map func_of l.
Fixpoint qeqb (a b : list string) : bool :=
  match a, b with [], [] => true | x :: a', y :: b' => streqb x y && qeqb a' b' | _, _ => false end.
Definition fname_eqb (a b : fname) : bool :=
  match a, b with
  | FName q, FName r => qeqb q r
  | FDtor n, FDtor m => streqb n m
  | FOper q y, FOper r z => qeqb q r && sym_eqb y z
  | _, _ => false
  end.
Definition pass_eqb (a b : pass) : bool :=
  match a, b with ByValue, ByValue | ByRef, ByRef | ByMove, ByMove | ByPtr, ByPtr => true | _, _ => false end.
(** Simple types (a name) are equal if the names are. *)
Definition name_type (c : cty) : option string := match c with Ct [n] [] => Some n | _ => None end.
Definition type_eqb (a b : cty) : bool :=
  match name_type a, name_type b with Some n, Some m => streqb n m | _, _ => false end.
Definition param_eqb (a b : param) : bool :=
  Bool.eqb (p_const a) (p_const b) && type_eqb (p_type a) (p_type b) && pass_eqb (p_pass a) (p_pass b).
Fixpoint params_eqb (a b : list param) : bool :=
  match a, b with [], [] => true | x :: a', y :: b' => param_eqb x y && params_eqb a' b' | _, _ => false end.
Definition rty_eqb (a b : rty) : bool :=
  match a, b with RVoid, RVoid | RBool, RBool => true | RType s, RType t => type_eqb s t | _, _ => false end.
Definition ret_eqb (a b : option (bool * rty * pass)) : bool :=
  match a, b with
  | None, None => true
  | Some (c, t, p), Some (d, u, q) => Bool.eqb c d && rty_eqb t u && pass_eqb p q
  | _, _ => false
  end.
(** The functions of a name, and the one with the parameters of a declaration. *)
Definition named (n : fname) (l : list func) : list func := filter (fun f => fname_eqb (f_name f) n) l.
(** The definition (a function with a body) of [n] with parameters [ps] and constness [c]. *)
Fixpoint defined (n : fname) (ps : list param) (c : bool) (l : list func) : option (func * stmt) :=
  match l with
  | [] => None
  | f :: r =>
    match f_body f with
    | BCode s => if fname_eqb (f_name f) n && params_eqb (f_params f) ps && Bool.eqb (f_const f) c then Some (f, s) else defined n ps c r
    | _ => defined n ps c r
    end
  end.
(** Is it declared with this result? *)
Definition declared (d : func) (l : list func) : bool :=
  existsb (fun f => fname_eqb (f_name f) (f_name d) && params_eqb (f_params f) (f_params d) && Bool.eqb (f_const f) (f_const d)
                    && ret_eqb (f_ret f) (f_ret d)) l.

(** The members of a class in a list of declarations. *)
Fixpoint class_body (q : list string) (l : list item) : option (list item) :=
  match l with
  | [] => None
  | IClass r m :: l' => if qeqb q r then Some m else class_body q l'
  | _ :: l' => class_body q l'
  end.
Definition usings (l : list item) : list (string * cty) := flat_map (fun i => match i with IUsing n t => [(n, t)] | _ => [] end) l.
Definition members (l : list item) : list (string * cty * bool) :=
  flat_map (fun i => match i with IField t n b => [(n, t, b)] | _ => [] end) l.
Definition forwards (l : list item) : list string := flat_map (fun i => match i with IForward n => [n] | _ => [] end) l.

(** The two files of an entity, read. *)
Record program := Prog {
  g_name : string;                        (* the class *)
  g_hincl : list string;                  (* the files the header includes *)
  g_sincl : list string;                  (* the files the source includes *)
  g_head : list item;                     (* the header's declarations *)
  g_body : list item;                     (* the members of the class *)
  g_mf : list item;                       (* the members of its class MF *)
  g_src : list item }.                    (* the definitions in the source file *)
Definition load (n : string) (header source : list string) : option program :=
  match parse header, parse source with
  | Some (ns1, h), Some (ns2, s) =>
    if negb (streqb ns1 "ISD" && streqb ns2 "ISD") then None else
    match class_body [n] h, class_body [n; "MF"] h with
    | Some b, Some m => Some (Prog n (includes header) (includes source) h b m s)
    | _, _ => None
    end
  | _, _ => None
  end.

(** The names visible in the header and in the source file (which includes the header). *)
Definition seen_h (g : program) (n : string) : bool := has (file_of n) (g_hincl g) || has n (forwards (g_head g)).
Definition complete_h (g : program) (n : string) : bool := has (file_of n) (g_hincl g).
Definition complete_s (g : program) (n : string) : bool :=
  has (file_of n) (g_sincl g) || (has (file_of (g_name g)) (g_sincl g) && has (file_of n) (g_hincl g)).
(** The typedefs of the class, in order: each may use the ones before it. *)
Fixpoint typedefs (W : world) (G : string -> bool) (T : list (string * schema)) (l : list (string * cty)) : option (list (string * schema)) :=
  match l with
  | [] => Some T
  | (n, c) :: r => match class_type W G T c with Some s => typedefs W G (T ++ [(n, s)]) r | None => None end
  end.
Definition class_typedefs (W : world) (g : program) : option (list (string * schema)) :=
  typedefs W (seen_h g) [] (usings (g_body g)).
(** The kinds of the member variables. *)
Definition member_kinds (g : program) : list (string * fkind) :=
  map (fun m => let '(n, t, _) := m in (n, kind_of (map fst (usings (g_body g))) t)) (members (g_body g)).

(** ** Does it compile? *)
(** The types of expressions: bool, void, null pointer, {}, the two arguments ISDKeyMacro makes, variables and objects (const
    or not), pointers to them, writers, readers, validators, the result of BeginReadSection. *)
Inductive sty := YBool | YVoid | YNull | YInit | YKey | YLv (const : bool) (k : fkind) | YPtr (const : bool) (k : fkind)
  | YWriter | YWriterPtr | YReader | YReaderPtr | YValidator | YBegin.
Definition tenv := list (string * sty).
(** Can it be used as a condition? *)
Definition testable (t : sty) : bool := match t with YBool | YPtr _ _ | YWriterPtr | YReaderPtr => true | _ => false end.
(** Can it be passed as a pointer to const of kind [k]? *)
Definition pointer_to (k : fkind) (t : sty) : bool := match t with YNull => true | YPtr _ j => kind_eqb j k | _ => false end.
Definition object_of (k : fkind) (t : sty) : bool := match t with YLv _ j => kind_eqb j k | _ => false end.
Definition variable_of (k : fkind) (t : sty) : bool := match t with YLv false j => kind_eqb j k | _ => false end.
Definition optional_ctype (c : ctype) : bool := match c with CtOpt | CtOptVec | CtOptIdx => true | _ => false end.

Section Check.
Context (g : program).
(** The class a qualified function name q::f belongs to: MF::f is the class' own; x::MF::f that of a typedef of the class or a
    class declared outside; E::x::MF::f that of a typedef of the class E. *)
Definition scope_of (q : list string) : option (fkind * string) :=
  match q with
  | [m; f] => if streqb m "MF" then Some (KSelf, f) else None
  | [x; m; f] =>
    if negb (streqb m "MF") then None else
    if has x (map fst (usings (g_body g))) || complete_s g x then Some (KCls x, f) else None
  | [e; x; m; f] =>
    if negb (streqb e (g_name g) && streqb m "MF") then None else
    if has x (map fst (usings (g_body g))) then Some (KCls x, f) else None
  | _ => None
  end.
(** A call of a function of a class MF, by the types of its arguments (EntityGenerator.py:86-93). *)
Definition mf_call (k : fkind) (f : string) (a : list sty) : option sty :=
  match a with
  | [x] => if streqb f "Clear" && variable_of k x then Some YVoid else None
  | [x; y] =>
    if streqb f "DeepCopy" then if variable_of k x && pointer_to k y then Some YVoid else None else
    if streqb f "Equals" then if pointer_to k x && pointer_to k y then Some YBool else None else
    if streqb f "Write" then match y with YWriter => if object_of k x then Some YBool else None | _ => None end else
    if streqb f "Read" then match y with YReader => if variable_of k x then Some YBool else None | _ => None end else
    if streqb f "Validate" then match y with YValidator => if object_of k x then Some YBool else None | _ => None end else None
  | _ => None
  end.
(** A call of a member function of an object: optional_value and the other optional containers, EntityWriter, EntityReader. *)
Definition member_call (o : sty) (f : string) (targs : list (list cty)) (a : list sty) : option sty :=
  match o, targs, a with
  | YLv _ (KOpt n), [], [] =>
    if streqb f "has_value" then Some YBool else
    if streqb f "value" then (match o with YLv c _ => Some (YLv c (KCls n)) | _ => None end) else
    if streqb f "set" || streqb f "reset" then (match o with YLv false _ => Some YVoid | _ => None end) else None
  | YLv false (KBase t c), [], [] => if streqb f "reset" && optional_ctype c then Some YVoid else None
  | YWriter, [[ct]], [YKey; v] =>
    match kind_of (map fst (usings (g_body g))) ct with
    | KBase t c => if streqb f "Write" && object_of (KBase t c) v then Some YBool else None
    | _ => None
    end
  | YWriter, [], [YKey] => if streqb f "BeginWriteSection" then Some YWriterPtr else None
  | YWriter, [], [YWriterPtr] => if streqb f "EndWriteSection" then Some YBool else None
  | YReader, [[ct]], [YKey; v] =>
    match kind_of (map fst (usings (g_body g))) ct with
    | KBase t c => if streqb f "Read" && variable_of (KBase t c) v then Some YBool else None
    | _ => None
    end
  | YReader, [], [YKey; YBool] => if streqb f "BeginReadSection" then Some YBegin else None
  | YReader, [], [YReaderPtr] => if streqb f "EndReadSection" then Some YBool else None
  | _, _, _ => None
  end.
Definition assign (l r : sty) : option sty :=
  match l, r with
  | YLv false (KBase t c), YInit => Some l
  | YLv false (KBase t c), YLv _ k => if kind_eqb (KBase t c) k then Some l else None
  | YBool, t => if testable t then Some l else None
  | YWriterPtr, (YWriterPtr | YNull) => Some l
  | YReaderPtr, (YReaderPtr | YNull) => Some l
  | _, _ => None
  end.
Definition member_of (c : bool) (f : string) : option sty :=
  match assoc f (member_kinds g) with Some k => Some (YLv c k) | None => None end.
Fixpoint tc (V : tenv) (e : expr) : option sty :=
  match e with
  | EId [x] => assoc x V
  | EId _ => None
  | EThis => assoc "this" V
  | EBool _ => Some YBool
  | ENull => Some YNull
  | EInit => Some YInit
  | EStr _ => None
  | EDot a f targs => match tc V a, targs with Some (YLv c KSelf), [] => member_of c f | _, _ => None end
  | EArrow a f => match tc V a with Some (YPtr c KSelf) => member_of c f | _ => None end
  | ECall (EId q) [EStr s] => if qeqb q ["ISDKeyMacro"] then Some YKey else None
  | ECall (EId q) [a] =>
    match tc V a, scope_of q with Some x, Some (k, f) => mf_call k f [x] | _, _ => None end
  | ECall (EId q) [a; b] =>
    match tc V a, tc V b, scope_of q with Some x, Some y, Some (k, f) => mf_call k f [x; y] | _, _, _ => None end
  | ECall (EDot o f targs) [] => match tc V o with Some t => member_call t f targs [] | None => None end
  | ECall (EDot o f targs) [a] => match tc V o, tc V a with Some t, Some x => member_call t f targs [x] | _, _ => None end
  | ECall (EDot o f targs) [a; b] =>
    match tc V o, tc V a, tc V b with Some t, Some x, Some y => member_call t f targs [x; y] | _, _, _ => None end
  | ECall _ _ => None
  | EAssign (ECall (EId q) [a; b]) r =>
    if negb (qeqb q ["std"; "tie"]) then None else
    match tc V a, tc V b, tc V r with Some YReaderPtr, Some YBool, Some YBegin => Some YVoid | _, _, _ => None end
  | EAssign l r => match tc V l, tc V r with Some x, Some y => assign x y | _, _ => None end
  | ENot a => match tc V a with Some t => if testable t then Some YBool else None | None => None end
  | EAddr a => match tc V a with Some (YLv c k) => Some (YPtr c k) | _ => None end
  | EDeref a =>
    match tc V a with
    | Some (YPtr c k) => Some (YLv c k) | Some YWriterPtr => Some YWriter | Some YReaderPtr => Some YReader | _ => None
    end
  | EOr a b => match tc V a, tc V b with Some x, Some y => if testable x && testable y then Some YBool else None | _, _ => None end
  | EEq a b => match tc V a, tc V b with Some (YPtr _ j), Some (YPtr _ k) => if kind_eqb j k then Some YBool else None | _, _ => None end
  | ENe a b =>
    match tc V a, tc V b with
    | Some (YLv _ (KBase t c)), Some (YLv _ k) => if kind_eqb (KBase t c) k then Some YBool else None
    | _, _ => None
    end
  | ECond c a b =>
    match tc V c, tc V a, tc V b with
    | Some t, Some (YPtr d k), Some y => if testable t && pointer_to k y then Some (YPtr d k) else None
    | _, _, _ => None
    end
  end.

(** What a function may return. *)
Definition returns (r : option (bool * rty * pass)) (t : option sty) : bool :=
  match r, t with
  | None, None => true
  | Some (_, RVoid, _), None => true
  | Some (_, RBool, ByValue), Some t => testable t
  | Some (c, RBool, ByRef), Some (YLv d k) => kind_eqb (KBase TBool CtNone) k && (c || negb d)
  | Some (c, RType (Ct [n] []), ByRef), Some (YLv d KSelf) => streqb n (g_name g) && (c || negb d)
  | Some (c, RType ct, ByRef), Some (YLv d k) => kind_eqb (kind_of (map fst (usings (g_body g))) ct) k && (c || negb d)
  | _, _ => false
  end.
(** Statements: the variables declared afterwards. *)
Fixpoint tcs (r : option (bool * rty * pass)) (V : tenv) (s : stmt) : option tenv :=
  match s with
  | SSkip => Some V
  | SSeq a b => match tcs r V a with Some V1 => tcs r V1 b | None => None end
  | SExpr e => match tc V e with Some _ => Some V | None => None end
  | SIf c a b =>
    match tc V c with
    | Some t => if negb (testable t) then None else
                match tcs r V a, tcs r V b with Some _, Some _ => Some V | _, _ => None end
    | None => None
    end
  | SReturn None => if returns r None then Some V else None
  | SReturn (Some e) => match tc V e with Some t => if returns r (Some t) then Some V else None | None => None end
  | SBool x e => if has x (map fst V) then None else
                 match tc V e with Some t => if testable t then Some ((x, YBool) :: V) else None | None => None end
  | SPtr t x e =>
    if has x (map fst V) then None else
    match e with
    | ENull => if streqb t "EntityWriter" && complete_s g "EntityWriter" then Some ((x, YWriterPtr) :: V)
               else if streqb t "EntityReader" && complete_s g "EntityReader" then Some ((x, YReaderPtr) :: V) else None
    | _ => None
    end
  end.
(** The types of the parameters. *)
Definition param_type (p : param) : option sty :=
  match name_type (p_type p) with
  | None => None
  | Some n =>
    match p_pass p with
    | ByRef => if streqb n (g_name g) then Some (YLv (p_const p) KSelf) else
               if p_const p then None else
               if streqb n "EntityWriter" then Some YWriter else if streqb n "EntityReader" then Some YReader else
               if streqb n "EntityValidator" then Some YValidator else None
    | ByPtr => if streqb n (g_name g) then Some (YPtr (p_const p) KSelf) else None
    | _ => None
    end
  end.
Fixpoint param_types (l : list param) : option tenv :=
  match l with
  | [] => Some []
  | p :: r => match param_type p, param_types r with Some t, Some V => Some ((p_name p, t) :: V) | _, _ => None end
  end.
(** A function body with the variables [V] besides the parameters. *)
Definition fun_ok (V : tenv) (d : func * stmt) : bool :=
  match param_types (f_params (fst d)) with
  | Some P => match tcs (f_ret (fst d)) (P ++ V) (snd d) with Some _ => true | None => false end
  | None => false
  end.

(** The functions of the class MF, by their parameters (EntityGenerator.py:86-93). *)
Definition self (c : bool) (p : pass) (x : string) : param := Par c (Ct [g_name g] []) p x.
Definition other (n x : string) : param := Par false (Ct [n] []) ByRef x.
Definition mf_sigs : list (string * rty * list param) :=
  [ ("Clear", RVoid, [self false ByRef "obj"]);
    ("DeepCopy", RVoid, [self false ByRef "dest"; self true ByPtr "source"]);
    ("Equals", RBool, [self true ByPtr "lvar"; self true ByPtr "rvar"]);
    ("Write", RBool, [self true ByRef "obj"; other "EntityWriter" "writer"]);
    ("Read", RBool, [self false ByRef "obj"; other "EntityReader" "reader"]);
    ("Validate", RBool, [self true ByRef "obj"; other "EntityValidator" "validator"]) ].
(** Each is declared in MF and defined in the source, and the definition is well typed. *)
Definition mf_def (f : string) (ps : list param) : option (func * stmt) :=
  defined (FName [g_name g; "MF"; f]) ps false (funcs (g_src g)).
Definition mf_ok (s : string * rty * list param) : bool :=
  let '(f, r, ps) := s in
  declared (Fn (Some (false, r, ByValue)) (FName [f]) ps false BDecl) (funcs (g_mf g))
  && match mf_def f ps with
     | Some d => ret_eqb (f_ret (fst d)) (Some (false, r, ByValue)) && fun_ok [] d
     | None => false
     end.
(** The copy constructor, the assignment and the comparisons: declared in the class, defined in the header. *)
Definition rval : param := self true ByRef "rval".
Definition ops : list (fname * fname * option (bool * rty * pass) * bool) :=
  [ (FName [g_name g], FName [g_name g; g_name g], None, false);
    (FOper [] Eq, FOper [g_name g] Eq, Some (false, RType (Ct [g_name g] []), ByRef), false);
    (FOper [] EqEq, FOper [g_name g] EqEq, Some (false, RBool, ByValue), true);
    (FOper [] BangEq, FOper [g_name g] BangEq, Some (false, RBool, ByValue), true) ].
Definition op_ok (s : fname * fname * option (bool * rty * pass) * bool) : bool :=
  let '(d, n, r, c) := s in
  declared (Fn r d [rval] c BDecl) (funcs (g_body g))
  && match defined n [rval] c (funcs (g_head g)) with
     | Some f => ret_eqb (f_ret (fst f)) r && fun_ok [("this", YPtr c KSelf)] f
     | None => false
     end.
(** The functions defined inside the class: the accessors. *)
Definition inline_ok (f : func) : bool :=
  match f_body f with BCode s => fun_ok [("this", YPtr (f_const f) KSelf)] (f, s) | _ => true end.
(** A member variable needs a complete type. *)
Definition member_ok (m : string * fkind) : bool :=
  match snd m with
  | KBase _ _ => complete_h g "Types"
  | KCls n | KOpt n => has n (map fst (usings (g_body g))) || complete_h g n
  | KOther | KSelf => false
  end.
(** The names declared in the class: typedefs and member variables; a function may share its name with other functions only. *)
Definition fun_names : list string := flat_map (fun f => match f_name f with FName [n] => [n] | _ => [] end) (funcs (g_body g)).
Fixpoint distinct (l : list string) : bool := match l with [] => true | x :: r => negb (has x r) && distinct r end.
Definition names_ok : bool :=
  let l := map fst (usings (g_body g)) ++ map fst (member_kinds g) ++ forwards (g_body g) in
  distinct l && negb (existsb (fun n => has n fun_names) l) && negb (has (g_name g) l).
End Check.

(** Both files compile: the class and its functions are well typed. (A variable of the kind KOther, a vector of class objects,
    would itself be a valid variable, but no function of the text accepts it; it is rejected here as well.) *)
Definition compiles (W : world) (g : program) : bool :=
  match class_typedefs W g with
  | None => false
  | Some _ =>
    complete_s g (g_name g) && names_ok g && forallb (member_ok g) (member_kinds g) && forallb (inline_ok g) (funcs (g_body g))
    && forallb (mf_ok g) (mf_sigs g) && forallb (op_ok g) (ops g)
  end.

(** ** What it does *)
(** The value of a member variable, and an object: its member variables in order. *)
Inductive fval := FvBase (t : dtype) (c : ctype) (x : cval) | FvObj (s : schema) (x : ty s) | FvOpt (s : schema) (x : option (ty s)).
Definition obj := list (string * fval).
(** Places: one of two objects of the class, a member variable of it, or the object in an optional member variable. *)
Inductive place := PObj (i : bool) | PVar (i : bool) (f : string) | PVal (i : bool) (f : string).
Inductive value := VVoid | VBool (b : bool) | VNull | VInit | VKey (k : list byte) | VAt (l : place) | VPtr (p : option place)
  | VWriter (h : N) | VWriterPtr (p : option N) | VReader (h : N) | VReaderPtr (p : option N) | VValidator
  | VBegin (p : option N) (b : bool).
(** The state: the two objects, the stream of the writer or reader, the ids reported, the variables. *)
Record rt := RT { o_0 : obj; o_1 : obj; r_ws : option wstate; r_rs : option rstate; r_log : list N; r_vars : list (string * value) }.
Definition the (i : bool) (s : rt) : obj := if i then o_1 s else o_0 s.
Definition put (i : bool) (o : obj) (s : rt) : rt :=
  if i then RT (o_0 s) o (r_ws s) (r_rs s) (r_log s) (r_vars s) else RT o (o_1 s) (r_ws s) (r_rs s) (r_log s) (r_vars s).
Fixpoint upd {A} (n : string) (v : A) (l : list (string * A)) : list (string * A) :=
  match l with [] => [] | (m, x) :: r => if streqb n m then (m, v) :: r else (m, x) :: upd n v r end.
Definition set_var (x : string) (v : value) (s : rt) : rt :=
  RT (o_0 s) (o_1 s) (r_ws s) (r_rs s) (r_log s) (upd x v (r_vars s)).
Definition new_var (x : string) (v : value) (s : rt) : rt :=
  RT (o_0 s) (o_1 s) (r_ws s) (r_rs s) (r_log s) ((x, v) :: r_vars s).
Definition set_ws (w : wstate) (s : rt) : rt := RT (o_0 s) (o_1 s) (Some w) (r_rs s) (r_log s) (r_vars s).
Definition set_rs (r : rstate) (s : rt) : rt := RT (o_0 s) (o_1 s) (r_ws s) (Some r) (r_log s) (r_vars s).
Definition add_log (l : list N) (s : rt) : rt := RT (o_0 s) (o_1 s) (r_ws s) (r_rs s) (r_log s ++ l) (r_vars s).

(** Classes are equal if their definitions are. *)
Definition ktype_dec (a b : ktype) : {a = b} + {a <> b}.
Proof.
  destruct a as [t a1 a2 a3], b as [u b1 b2 b3]. destruct (dtype_dec t u) as [e|ne].
  - subst u. left. f_equal; apply Eqdep_dec.UIP_dec; apply bool_dec.
  - right. intros e. apply ne. injection e; auto.
Defined.
Definition gflags_dec (a b : gflags) : {a = b} + {a <> b}.
Proof. decide equality; apply bool_dec. Defined.
Definition tflags_dec (a b : tflags) : {a = b} + {a <> b}.
Proof. decide equality; apply bool_dec. Defined.
Scheme schema_mut := Induction for schema Sort Type with fields_mut := Induction for fields Sort Type.
Definition bytes_eq_dec (a b : list byte) : {a = b} + {a <> b} := list_eq_dec Byte.byte_eq_dec a b.
Definition schema_dec : forall a b : schema, {a = b} + {a <> b}.
Proof.
  apply (schema_mut (fun a => forall b, {a = b} + {a <> b}) (fun a => forall b, {a = b} + {a <> b})).
  - intros k f [k' f'| | | |]; try (right; discriminate).
    destruct (ktype_dec k k'); [|right; congruence].
    destruct (gflags_dec f f'); [|right; congruence]. left; congruence.
  - intros k f s IH [|k' f' s'| | |]; try (right; discriminate).
    destruct (ktype_dec k k'); [|right; congruence].
    destruct (tflags_dec f f'); [|right; congruence]. destruct (IH s'); [left|right]; congruence.
  - intros t [| |t'| |]; try (right; discriminate). destruct (dtype_dec t t'); [left|right]; congruence.
  - intros [| | | |]; try (right; discriminate). left; reflexivity.
  - intros fs IH [| | | |fs']; try (right; discriminate). destruct (IH fs'); [left|right]; congruence.
  - intros [| | |]; try (right; discriminate). left; reflexivity.
  - intros n t c r IH [|n' t' c' r'| |]; try (right; discriminate).
    destruct (bytes_eq_dec n n'); [|right; congruence]. destruct (dtype_dec t t'); [|right; congruence].
    destruct (ctype_dec c c'); [|right; congruence]. destruct (IH r'); [left|right]; congruence.
  - intros n s IHs r IHr [| |n' s' r'|]; try (right; discriminate).
    destruct (bytes_eq_dec n n'); [|right; congruence]. destruct (IHs s'); [|right; congruence].
    destruct (IHr r'); [left|right]; congruence.
  - intros n s IHs r IHr [| | |n' s' r']; try (right; discriminate).
    destruct (bytes_eq_dec n n'); [|right; congruence]. destruct (IHs s'); [|right; congruence].
    destruct (IHr r'); [left|right]; congruence.
Defined.
Definition cast (s s' : schema) (x : ty s) : option (ty s') :=
  match schema_dec s s' with left e => Some (eq_rect s ty x s' e) | right _ => None end.

(** The object of class [s] at a place, and putting one there. *)
Definition get_at (s : schema) (l : place) (st : rt) : option (ty s) :=
  match l with
  | PObj _ => None
  | PVar i f => match assoc f (the i st) with Some (FvObj s' x) => cast s' s x | _ => None end
  | PVal i f => match assoc f (the i st) with Some (FvOpt s' (Some x)) => cast s' s x | _ => None end
  end.
Definition put_at (s : schema) (l : place) (x : ty s) (st : rt) : rt :=
  match l with
  | PObj _ => st
  | PVar i f => put i (upd f (FvObj s x) (the i st)) st
  | PVal i f => put i (upd f (FvOpt s (Some x)) (the i st)) st
  end.
Definition place_eqb (a b : place) : bool :=
  match a, b with
  | PObj i, PObj j => Bool.eqb i j
  | PVar i f, PVar j h => Bool.eqb i j && streqb f h
  | PVal i f, PVal j h => Bool.eqb i j && streqb f h
  | _, _ => false
  end.
Definition ptr_eqb (a b : option place) : bool :=
  match a, b with None, None => true | Some x, Some y => place_eqb x y | _, _ => false end.
(** Conversion to bool. *)
Definition truth (v : value) : option bool :=
  match v with
  | VBool b => Some b
  | VPtr p => Some (match p with Some _ => true | None => false end)
  | VWriterPtr p | VReaderPtr p => Some (match p with Some _ => true | None => false end)
  | _ => None
  end.
(** ISDKeyMacro( name ): the name and the length of the name as a u8 (ISD/ISD_Types.h:32). *)
Definition key_macro (s : string) : list byte :=
  let b := list_byte_of_string s in take (len b mod 256) b.

Definition ofopt {A} (o : option A) : res A := match o with Some a => Done a | None => Undef end.

(** Undefined here: the text is not well typed. *)
Section Eval.
Context (I : forall t, umap_impl (key t)) (W : world) (g : program) (T : list (string * schema)) (re : renv) (budget : nat).
(** The functions of the class itself: MF::Clear, MF::DeepCopy, MF::Equals. *)
Context (own_clear : obj -> res obj) (own_copy : obj -> option obj -> res obj)
        (own_equals : option bool -> option bool -> obj -> obj -> res bool).

(** The class of a qualified function name. *)
Definition class_named (x : string) : option schema :=
  match assoc x T with Some s => Some s | None => if complete_s g x then W x else None end.
Definition callee (q : list string) : option (option schema * string) :=
  match scope_of g q with
  | Some (KSelf, f) => Some (None, f)
  | Some (KCls x, f) => match class_named x with Some s => Some (Some s, f) | None => None end
  | _ => None
  end.
(** What a pointer argument points to. *)
Definition get_ptr (s : schema) (v : value) (st : rt) : option (option place * option (ty s)) :=
  match v with
  | VNull | VPtr None => Some (None, None)
  | VPtr (Some l) => match get_at s l st with Some x => Some (Some l, Some x) | None => None end
  | _ => None
  end.
Definition own_ptr (v : value) : option (option bool) :=
  match v with VNull | VPtr None => Some None | VPtr (Some (PObj i)) => Some (Some i) | _ => None end.

(** A call of a function of a class MF. *)
Definition call_mf (s : schema) (f : string) (a b : value) (st : rt) : res (value * rt) :=
  if streqb f "DeepCopy" then
    match a with
    | VAt l =>
      do d <- ofopt (get_at s l st); do p <- ofopt (get_ptr s b st);
      do x <- m_copy (smf I s) d (snd p); Done (VVoid, put_at s l x st)
    | _ => Undef
    end
  else if streqb f "Equals" then
    do p <- ofopt (get_ptr s a st); do q <- ofopt (get_ptr s b st);
    Done (VBool (m_equals (smf I s) (ptr_eqb (fst p) (fst q)) (snd p) (snd q)), st)
  else if streqb f "Write" then
    match a, b, r_ws st with
    | VAt l, VWriter h, Some w =>
      do x <- ofopt (get_at s l st); do r <- m_write (smf I s) h x w; Done (VBool (fst r), set_ws (snd r) st)
    | _, _, _ => Undef
    end
  else if streqb f "Read" then
    match a, b, r_rs st with
    | VAt l, VReader h, Some w =>
      do x <- ofopt (get_at s l st); do r <- m_read (smf I s) re h x w;
      let '(ok, y, w1) := r in Done (VBool ok, set_rs w1 (put_at s l y st))
    | _, _, _ => Undef
    end
  else if streqb f "Validate" then
    match a, b with
    | VAt l, VValidator =>
      do x <- ofopt (get_at s l st); do r <- ofopt (m_validate (smf I s) budget x); Done (VBool true, add_log r st)
    | _, _ => Undef
    end
  else Undef.
Definition call_clear (s : schema) (a : value) (st : rt) : res (value * rt) :=
  match a with
  | VAt l => do d <- ofopt (get_at s l st); do x <- m_clear (smf I s) d; Done (VVoid, put_at s l x st)
  | _ => Undef
  end.
Definition call_own (f : string) (a b : value) (st : rt) : res (value * rt) :=
  if streqb f "DeepCopy" then
    match a, own_ptr b with
    | VAt (PObj i), Some p =>
      do x <- own_copy (the i st) (option_map (fun j => the j st) p); Done (VVoid, put i x st)
    | _, _ => Undef
    end
  else if streqb f "Equals" then
    match own_ptr a, own_ptr b with
    | Some p, Some q => do r <- own_equals p q (o_0 st) (o_1 st); Done (VBool r, st)
    | _, _ => Undef
    end
  else Undef.

(** A call of a member function of an object. *)
Definition call_member (o : value) (f : string) (targs : list (list cty)) (a : list value) (st : rt) : res (value * rt) :=
  match o, a with
  | VAt (PVar i x), [] =>
    match assoc x (the i st) with
    | Some (FvOpt s v) =>
      if streqb f "has_value" then Done (VBool (match v with Some _ => true | None => false end), st) else
      if streqb f "value" then (match v with Some _ => Done (VAt (PVal i x), st) | None => Undef end) else
      if streqb f "set" then Done (VVoid, put i (upd x (FvOpt s (Some (m_new (smf I s)))) (the i st)) st) else
      if streqb f "reset" then Done (VVoid, put i (upd x (FvOpt s None) (the i st)) st) else Undef
    | Some (FvBase t c _) =>
      if streqb f "reset" && optional_ctype c then Done (VVoid, put i (upd x (FvBase t c (cval_default t c)) (the i st)) st) else Undef
    | _ => Undef
    end
  | VWriter h, [VKey k; VAt (PVar i x)] =>
    match assoc x (the i st), r_ws st, targs with
    | Some (FvBase t c v), Some w, [[ct]] =>
      if streqb f "Write" && kind_eqb (kind_of (map fst (usings (g_body g))) ct) (KBase t c)
      then do r <- w_write h t k v w; Done (VBool (fst r), set_ws (snd r) st) else Undef
    | _, _, _ => Undef
    end
  | VWriter h, [VKey k] =>
    match r_ws st with
    | Some w => if streqb f "BeginWriteSection" then do r <- w_begin h k w; Done (VWriterPtr (fst r), set_ws (snd r) st) else Undef
    | None => Undef
    end
  | VWriter h, [VWriterPtr p] =>
    match r_ws st with
    | Some w => if streqb f "EndWriteSection" then do r <- w_end h p w; Done (VBool (fst r), set_ws (snd r) st) else Undef
    | None => Undef
    end
  | VReader h, [VKey k; VAt (PVar i x)] =>
    match assoc x (the i st), r_rs st, targs with
    | Some (FvBase t c v), Some w, [[ct]] =>
      if streqb f "Read" && kind_eqb (kind_of (map fst (usings (g_body g))) ct) (KBase t c)
      then do r <- r_read re h t k v w; let '(ok, v1, w1) := r in
           Done (VBool ok, set_rs w1 (put i (upd x (FvBase t c v1) (the i st)) st)) else Undef
    | _, _, _ => Undef
    end
  | VReader h, [VKey k; VBool b] =>
    match r_rs st with
    | Some w => if streqb f "BeginReadSection"
                then do r <- r_begin re h k b w; let '(p, ok, w1) := r in Done (VBegin p ok, set_rs w1 st) else Undef
    | None => Undef
    end
  | VReader h, [VReaderPtr p] =>
    match r_rs st with
    | Some w => if streqb f "EndReadSection" then do r <- r_end h p w; Done (VBool (fst r), set_rs (snd r) st) else Undef
    | None => Undef
    end
  | _, _ => Undef
  end.

(** Assignment to a variable of the function (the type of the variable is that of its present value) or to a member variable. *)
Definition assign_var (x : string) (v : value) (st : rt) : res (value * rt) :=
  match assoc x (r_vars st), v with
  | Some (VBool _), _ => do b <- ofopt (truth v); Done (VBool b, set_var x (VBool b) st)
  | Some (VWriterPtr _), VNull => Done (VWriterPtr None, set_var x (VWriterPtr None) st)
  | Some (VWriterPtr _), VWriterPtr p => Done (v, set_var x v st)
  | Some (VReaderPtr _), VNull => Done (VReaderPtr None, set_var x (VReaderPtr None) st)
  | Some (VReaderPtr _), VReaderPtr p => Done (v, set_var x v st)
  | _, _ => Undef
  end.
Definition assign_at (l : place) (v : value) (st : rt) : res (value * rt) :=
  match l with
  | PVar i x =>
    match assoc x (the i st), v with
    | Some (FvBase t c _), VInit => Done (VAt l, put i (upd x (FvBase t c (cval_default t c)) (the i st)) st)
    | Some (FvBase t c _), VAt (PVar j y) =>
      match assoc y (the j st) with
      | Some (FvBase u d w) =>
        if kind_eqb (KBase t c) (KBase u d) then Done (VAt l, put i (upd x (FvBase t c w) (the i st)) st) else Undef
      | _ => Undef
      end
    | _, _ => Undef
    end
  | _ => Undef
  end.

Fixpoint eval (e : expr) (st : rt) : res (value * rt) :=
  match e with
  | EId [x] => do v <- ofopt (assoc x (r_vars st)); Done (v, st)
  | EId _ => Undef
  | EThis => do v <- ofopt (assoc "this" (r_vars st)); Done (v, st)
  | EBool b => Done (VBool b, st)
  | ENull => Done (VNull, st)
  | EInit => Done (VInit, st)
  | EStr _ => Undef
  | EDot a f _ => do r <- eval a st; match fst r with VAt (PObj i) => Done (VAt (PVar i f), snd r) | _ => Undef end
  | EArrow a f => do r <- eval a st; match fst r with VPtr (Some (PObj i)) => Done (VAt (PVar i f), snd r) | _ => Undef end
  | ECall (EId q) [EStr s] => if qeqb q ["ISDKeyMacro"] then Done (VKey (key_macro s), st) else Undef
  | ECall (EId q) [a] =>
    do r <- eval a st;
    match callee q with
    | Some (Some s, f) => if streqb f "Clear" then call_clear s (fst r) (snd r) else Undef
    | Some (None, f) =>
      match fst r with
      | VAt (PObj i) => if streqb f "Clear" then do x <- own_clear (the i (snd r)); Done (VVoid, put i x (snd r)) else Undef
      | _ => Undef
      end
    | None => Undef
    end
  | ECall (EId q) [a; b] =>
    do r <- eval a st; do r2 <- eval b (snd r);
    match callee q with
    | Some (Some s, f) => call_mf s f (fst r) (fst r2) (snd r2)
    | Some (None, f) => call_own f (fst r) (fst r2) (snd r2)
    | None => Undef
    end
  | ECall (EDot o f ta) [] => do r <- eval o st; call_member (fst r) f ta [] (snd r)
  | ECall (EDot o f ta) [a] => do r <- eval o st; do r1 <- eval a (snd r); call_member (fst r) f ta [fst r1] (snd r1)
  | ECall (EDot o f ta) [a; b] =>
    do r <- eval o st; do r1 <- eval a (snd r); do r2 <- eval b (snd r1); call_member (fst r) f ta [fst r1; fst r2] (snd r2)
  | ECall _ _ => Undef
  | EAssign (ECall (EId q) [EId [a]; EId [b]]) r =>
    if negb (qeqb q ["std"; "tie"]) then Undef else
    do x <- eval r st;
    match fst x with
    | VBegin p ok => do y <- assign_var a (VReaderPtr p) (snd x); do z <- assign_var b (VBool ok) (snd y); Done (VVoid, snd z)
    | _ => Undef
    end
  | EAssign (EId [x]) r => do v <- eval r st; assign_var x (fst v) (snd v)
  | EAssign l r =>
    do v <- eval r st; do p <- eval l (snd v);
    match fst p with VAt a => assign_at a (fst v) (snd p) | _ => Undef end
  | ENot a => do r <- eval a st; do b <- ofopt (truth (fst r)); Done (VBool (negb b), snd r)
  | EAddr a => do r <- eval a st; match fst r with VAt l => Done (VPtr (Some l), snd r) | _ => Undef end
  | EDeref a =>
    do r <- eval a st;
    match fst r with
    | VPtr (Some l) => Done (VAt l, snd r)
    | VWriterPtr (Some h) => Done (VWriter h, snd r)
    | VReaderPtr (Some h) => Done (VReader h, snd r)
    | _ => Undef
    end
  | EOr a b =>
    do r <- eval a st; do x <- ofopt (truth (fst r));
    if x then Done (VBool true, snd r) else
    do q <- eval b (snd r); do y <- ofopt (truth (fst q)); Done (VBool y, snd q)
  | EEq a b =>
    do r <- eval a st; do q <- eval b (snd r);
    match fst r, fst q with VPtr x, VPtr y => Done (VBool (ptr_eqb x y), snd q) | _, _ => Undef end
  | ENe a b =>
    do r <- eval a st; do q <- eval b (snd r);
    match fst r, fst q with
    | VAt (PVar i x), VAt (PVar j y) =>
      match assoc x (the i (snd q)), assoc y (the j (snd q)) with
      | Some (FvBase t c v), Some (FvBase u d w) =>
        if kind_eqb (KBase t c) (KBase u d) then Done (VBool (cval_ne t v w), snd q) else Undef
      | _, _ => Undef
      end
    | _, _ => Undef
    end
  | ECond c a b =>
    do r <- eval c st; do x <- ofopt (truth (fst r)); if x then eval a (snd r) else eval b (snd r)
  end.

(** Statements: did the function return, and what. *)
Fixpoint exec (s : stmt) (st : rt) : res (option value * rt) :=
  match s with
  | SSkip => Done (None, st)
  | SSeq a b => do r <- exec a st; match fst r with Some v => Done (Some v, snd r) | None => exec b (snd r) end
  | SExpr e => do r <- eval e st; Done (None, snd r)
  | SIf c a b => do r <- eval c st; do x <- ofopt (truth (fst r)); if x then exec a (snd r) else exec b (snd r)
  | SReturn None => Done (Some VVoid, st)
  | SReturn (Some e) => do r <- eval e st; Done (Some (fst r), snd r)
  | SBool x e => do r <- eval e st; do b <- ofopt (truth (fst r)); Done (None, new_var x (VBool b) (snd r))
  | SPtr t x e =>
    match e with
    | ENull => if streqb t "EntityWriter" then Done (None, new_var x (VWriterPtr None) st)
               else if streqb t "EntityReader" then Done (None, new_var x (VReaderPtr None) st) else Undef
    | _ => Undef
    end
  end.
End Eval.

(** ** The functions of the class *)
Section Run.
Context (I : forall t, umap_impl (key t)) (W : world) (g : program) (T : list (string * schema)).
Definition bindings (d : func * stmt) (l : list value) : list (string * value) := combine (map p_name (f_params (fst d))) l.
Definition no_copy (d : obj) (s : option obj) : res obj := Undef.
Definition no_equals (p q : option bool) (a b : obj) : res bool := Undef.
Definition re0 : renv := RE 0 (fun _ => x00).
(** MF::Clear( obj ) *)
Definition run_clear (x : obj) : res obj :=
  match mf_def g "Clear" [self g false ByRef "obj"] with
  | Some d => do r <- exec I W g T re0 0 (fun _ => Undef) no_copy no_equals (snd d) (RT x [] None None [] (bindings d [VAt (PObj false)]));
              Done (o_0 (snd r))
  | None => Undef
  end.
(** MF::DeepCopy( dest, source ), of two objects; a null source is None. *)
Definition run_copy (d : obj) (s : option obj) : res obj :=
  match mf_def g "DeepCopy" [self g false ByRef "dest"; self g true ByPtr "source"] with
  | Some f =>
    let '(src, p) := match s with Some x => (x, Some (PObj true)) | None => ([], None) end in
    do r <- exec I W g T re0 0 run_clear no_copy no_equals (snd f) (RT d src None None [] (bindings f [VAt (PObj false); VPtr p]));
    Done (o_0 (snd r))
  | None => Undef
  end.
(** MF::Equals( lvar, rvar ): each is null or one of two objects. *)
Definition run_equals (p q : option bool) (a b : obj) : res bool :=
  match mf_def g "Equals" [self g true ByPtr "lvar"; self g true ByPtr "rvar"] with
  | Some f =>
    do r <- exec I W g T re0 0 run_clear run_copy no_equals (snd f)
              (RT a b None None [] (bindings f [VPtr (option_map PObj p); VPtr (option_map PObj q)]));
    match fst r with Some (VBool x) => Done x | _ => Undef end
  | None => Undef
  end.
(** MF::Write( obj, writer ): the bool returned and the stream afterwards. *)
Definition run_write (h : N) (x : obj) (w : wstate) : res (bool * wstate) :=
  match mf_def g "Write" [self g true ByRef "obj"; other "EntityWriter" "writer"] with
  | Some f =>
    do r <- exec I W g T re0 0 run_clear run_copy run_equals (snd f)
              (RT x [] (Some w) None [] (bindings f [VAt (PObj false); VWriter h]));
    match fst r, r_ws (snd r) with Some (VBool b), Some w1 => Done (b, w1) | _, _ => Undef end
  | None => Undef
  end.
(** MF::Read( obj, reader ): the bool returned, the object and the stream afterwards. *)
Definition run_read (e : renv) (h : N) (x : obj) (w : rstate) : res (bool * obj * rstate) :=
  match mf_def g "Read" [self g false ByRef "obj"; other "EntityReader" "reader"] with
  | Some f =>
    do r <- exec I W g T e 0 run_clear run_copy run_equals (snd f)
              (RT x [] None (Some w) [] (bindings f [VAt (PObj false); VReader h]));
    match fst r, r_rs (snd r) with Some (VBool b), Some w1 => Done (b, o_0 (snd r), w1) | _, _ => Undef end
  | None => Undef
  end.
(** MF::Validate( obj, validator ): the bool returned and the ids reported. (Undefined also if the number of steps allowed
    for graph searches does not suffice.) *)
Definition run_validate (n : nat) (x : obj) : res (bool * list N) :=
  match mf_def g "Validate" [self g true ByRef "obj"; other "EntityValidator" "validator"] with
  | Some f =>
    do r <- exec I W g T re0 n run_clear run_copy run_equals (snd f)
              (RT x [] None None [] (bindings f [VAt (PObj false); VValidator]));
    match fst r with Some (VBool b) => Done (b, r_log (snd r)) | _ => Undef end
  | None => Undef
  end.

(** The default constructor (= default): every member is initialised by its initialiser or default constructor; a plain data
    type without an initialiser stays uninitialised, which is undefined when it is used. *)
Definition new_member (k : fkind) (init : bool) : option fval :=
  match k with
  | KBase t c => if init || negb (match c with CtNone => true | _ => false end) then Some (FvBase t c (cval_default t c)) else None
  | KCls n => match class_named W g T n with Some s => Some (FvObj s (m_new (smf I s))) | None => None end
  | KOpt n => match class_named W g T n with Some s => Some (FvOpt s None) | None => None end
  | _ => None
  end.
Fixpoint new_members (l : list (string * cty * bool)) : option obj :=
  match l with
  | [] => Some []
  | (n, t, b) :: r =>
    match new_member (kind_of (map fst (usings (g_body g))) t) b, new_members r with
    | Some v, Some o => Some ((n, v) :: o)
    | _, _ => None
    end
  end.
Definition run_new : res obj := ofopt (new_members (members (g_body g))).
(** The operators and the copy constructor; [this] is the first object. *)
Definition run_op (n : fname) (c : bool) (a b : obj) : res (option value * rt) :=
  match defined n [rval g] c (funcs (g_head g)) with
  | Some f => exec I W g T re0 0 run_clear run_copy run_equals (snd f)
                (RT a b None None [] (bindings f [VAt (PObj true)] ++ [("this", VPtr (Some (PObj false)))]))
  | None => Undef
  end.
Definition run_copy_ctor (b : obj) : res obj :=
  do a <- run_new; do r <- run_op (FName [g_name g; g_name g]) false a b; Done (o_0 (snd r)).
Definition run_assign (a b : obj) : res obj := do r <- run_op (FOper [g_name g] Eq) false a b; Done (o_0 (snd r)).
Definition run_eq (a b : obj) : res bool :=
  do r <- run_op (FOper [g_name g] EqEq) true a b; match fst r with Some (VBool x) => Done x | _ => Undef end.
Definition run_ne (a b : obj) : res bool :=
  do r <- run_op (FOper [g_name g] BangEq) true a b; match fst r with Some (VBool x) => Done x | _ => Undef end.
(** The variable an accessor of an object refers to (const or not). *)
Definition run_accessor (n : string) (c : bool) (a : obj) : res string :=
  match defined (FName [n]) [] c (funcs (g_body g)) with
  | Some f =>
    do r <- exec I W g T re0 0 run_clear run_copy run_equals (snd f) (RT a [] None None [] [("this", VPtr (Some (PObj false)))]);
    match fst r with Some (VAt (PVar false x)) => Done x | _ => Undef end
  | None => Undef
  end.
End Run.
