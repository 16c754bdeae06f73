(** * CppData: the meaning of C++ text, for the part of C++ the generated files ISD_DataTypes.h, ISD_DataTypes.cpp and
    ISD_DataValuePointers.h are written in. The files are modelled in GenData.v; this file has no counterpart in /repo, it stands for the
    C++ compiler, <cstdint>, <cfloat>, memcmp, guiddef.h and glm (see DESIGN.md). Text outside the subset has no meaning ([None]).
    Simplifications: preprocessor lines are skipped, all conditional parts are taken; names are looked up without regard to the namespace
    ISD; functions on streams (operator<<) are skipped; conversions to integer types are modulo, also in braces; static local variables have
    their first value (Refs.v has their changes). *)
From Coq Require Import Strings.String Strings.Ascii.
From Verif Require Import Base Bytes Values Types Keys GenText CppText CppFun CppDyn.
Local Open Scope string_scope.
Local Open Scope list_scope.
Local Open Scope N_scope.

(** ** Syntax *)
Inductive xe :=
| XNum (s : string) | XReal (a b : string) | XName (q : list string) | XTruth (b : bool) | XThis
| XTilde (e : xe) | XMinus (e : xe) | XAddr (e : xe) | XDeref (e : xe)
| XXor (a b : xe) | XCmp (o : sym) (a b : xe) | XAnd (a b : xe) | XOr (a b : xe)
| XDot (e : xe) (f : string) | XIndex (e i : xe)
| XCall (q : list string) (l : list xe)
| XHashed (t : cty) (l : list xe)                (* std::hash<t>{}( l ) *)
| XList (l : list xe)                            (* { l } *)
| XCast (t : cty) (e : xe)                       (* a cast of e to pointer to const t *)
| XSizeof (t : cty).
Inductive xs :=
| SRet (e : xe)
| SSet (o : xe) (f : string) (e : xe)            (* o.f = e; *)
| SPointer (t : cty) (x : string) (e : xe)       (* a pointer x to const t, with initial value e *)
| SStatic (t : cty) (x : string) (l : list xe)   (* static t x( l ); *)
| SAssert (e : xe).
Inductive mname := MName (n : string) | MOper (o : sym) | MConv (t : cty).
(** A constructor: is it public, its parameters, the initialised members, its body. *)
Record xctor := XCtor { xk_public : bool; xk_params : list param; xk_inits : list (string * xe); xk_body : list xs }.
Record xmeth := XMeth { xm_public : bool; xm_static : bool; xm_const : bool; xm_type : cty; xm_pass : pass; xm_name : mname;
  xm_params : list param; xm_this : bool (* const *); xm_body : option (list xs) }.
Inductive xpart := PField (t : cty) (n : string) (public : bool) | PCtor (c : xctor) | PMeth (m : xmeth) | PFriend (n : string) | PDtor | PAccess (public : bool).
Record xclass := XClass { xc_name : string; xc_parts : list xpart }.
Inductive xmember := MUsing (n : string) (t : cty) | MValue (t : cty) (n : string) (e : xe) | MText (n : string) (s : string) | MDecl (t : cty) (n : string).
Inductive xitem :=
| JTypedef (t : cty) (n : string)
| JUnion (n : string) (fs : list (cty * (string * N)))
| JConst (t : cty) (n : string) (e : option xe)
| JStatic (t of : cty) (m : string) (e : xe)
| JClass (c : xclass)
| JEnum (e : enumeration)
| JInfo (t : cty) (ms : list xmember)
| JHash (t : cty) (r : cty) (p : param) (b : list xs)
| JOper (o : sym) (ps : list param) (b : list xs)
| JPtr (c : bool) (t : cty) (p : param) (b : list xs)
| JNone.

(** ** The parser *)
Local Notation "x <~ p ;; q" := (pbind p (fun x => q)) (at level 100, p at level 99, right associativity).
Definition none {A} : P A := fun _ => None.
Definition isdigit (s : string) : bool := match s with String c _ => match dec_digit c with Some _ => true | None => false end | "" => false end.
(** { name< type >{} }( of a hash function object, after std::hash *)
Definition pmade (n : nat) : P cty := _ <~ need CppText.Lt ;; t <~ ptype n ;; _ <~ need Gt ;; _ <~ need LBrace ;; _ <~ need RBrace ;; pret t.
(** ( const type * ) *)
Definition pconstptr (n : nat) : P cty := _ <~ need LPar ;; _ <~ needkw KConst ;; t <~ ptype n ;; _ <~ need Star ;; _ <~ need RPar ;; pret t.
Definition qeqb (a b : list string) : bool := if list_eq_dec string_dec a b then true else false.

Fixpoint xpexpr (n : nat) : P xe :=
  match n with
  | 0%nat => none
  | S m => a <~ xpand m ;; b <~ opt BarBar ;; if b : bool then (r <~ xpexpr m ;; pret (XOr a r)) else pret a
  end
with xpand (n : nat) : P xe :=
  match n with
  | 0%nat => none
  | S m => a <~ xpxor m ;; b <~ opt AmpAmp ;; if b : bool then (r <~ xpand m ;; pret (XAnd a r)) else pret a
  end
with xpxor (n : nat) : P xe :=
  match n with
  | 0%nat => none
  | S m => a <~ xpcmp m ;; b <~ optbad "^" ;; if b : bool then (r <~ xpxor m ;; pret (XXor a r)) else pret a
  end
with xpcmp (n : nat) : P xe :=
  match n with
  | 0%nat => none
  | S m =>
    a <~ xpun m ;; fun l =>
    match l with
    | Sy EqEq :: r => (b <~ xpun m ;; pret (XCmp EqEq a b)) r
    | Sy BangEq :: r => (b <~ xpun m ;; pret (XCmp BangEq a b)) r
    | Sy CppText.Lt :: r => (b <~ xpun m ;; pret (XCmp CppText.Lt a b)) r
    | _ => Some (a, l)
    end
  end
with xpun (n : nat) : P xe :=
  match n with
  | 0%nat => none
  | S m => fun l =>
    match l with
    | Sy Tilde :: r => (e <~ xpun m ;; pret (XTilde e)) r
    | Sy Amp :: r => (e <~ xpun m ;; pret (XAddr e)) r
    | Sy Star :: r => (e <~ xpun m ;; pret (XDeref e)) r
    | Bad c :: r => if Ascii.eqb c "-" then (e <~ xpun m ;; pret (XMinus e)) r else None
    | _ => match pconstptr m l with Some (t, r) => (e <~ xpun m ;; pret (XCast t e)) r | None => (e <~ xpprim m ;; xppost m e) l end
    end
  end
with xppost (n : nat) (e : xe) : P xe :=
  match n with
  | 0%nat => none
  | S m => fun l =>
    match l with
    | Sy Dot :: r => (f <~ ident ;; xppost m (XDot e f)) r
    | Sy Arrow :: r => (f <~ ident ;; xppost m (XDot (XDeref e) f)) r
    | Bad c :: r => if Ascii.eqb c lbracket then (i <~ xpexpr m ;; _ <~ bad rbracket ;; xppost m (XIndex e i)) r else Some (e, l)
    | _ => Some (e, l)
    end
  end
with xpprim (n : nat) : P xe :=
  match n with
  | 0%nat => none
  | S m => fun l =>
    match l with
    | Kw KTrue :: r => Some (XTruth true, r)
    | Kw KFalse :: r => Some (XTruth false, r)
    | Kw KThis :: r => Some (XThis, r)
    | Kw KBool :: Sy LPar :: r => (a <~ xpargs m RPar ;; pret (XCall ["bool"] a)) r
    | Sy LPar :: r => (e <~ xpexpr m ;; _ <~ need RPar ;; pret e) r
    | Sy LBrace :: r => (a <~ xpargs m RBrace ;; pret (XList a)) r
    | Id a :: Sy Dot :: Id b :: r => if isdigit a then Some (XReal a b, r) else Some (XName [a], Sy Dot :: Id b :: r)
    | Id a :: r =>
      if isdigit a then Some (XNum a, r) else
      if streqb a "sizeof" then (_ <~ need LPar ;; t <~ ptype m ;; _ <~ need RPar ;; pret (XSizeof t)) r else
      (q <~ qname n ;; fun l2 =>
       match l2 with
       | Sy LPar :: r2 => (x <~ xpargs m RPar ;; pret (XCall q x)) r2
       | Sy CppText.Lt :: _ =>
         if qeqb q ["std"; "hash"] then (t <~ pmade m ;; _ <~ need LPar ;; x <~ xpargs m RPar ;; pret (XHashed t x)) l2 else Some (XName q, l2)
       | _ => Some (XName q, l2)
       end) l
    | _ => None
    end
  end
(** expressions separated by commas, up to [close], which is taken as well *)
with xpargs (n : nat) (close : sym) : P (list xe) :=
  match n with
  | 0%nat => none
  | S m => fun l =>
    match opt close l with
    | Some (true, r) => Some ([], r)
    | _ =>
      (a <~ xpexpr m ;; b <~ opt Comma ;;
       if b : bool then (r <~ xpargs m close ;; match r with [] => none | _ => pret (a :: r) end) else (_ <~ need close ;; pret [a])) l
    end
  end.
Definition xp : P xe := xpexpr 60.

(** Statements up to a closing brace, which is taken as well. *)
Definition pxs : P xs :=
  fun l =>
  match l with
  | Kw KReturn :: r => (e <~ xp ;; _ <~ need Semi ;; pret (SRet e)) r
  | Kw KStatic :: r =>
    (t <~ ptype depth ;; x <~ ident ;; fun l2 =>
     match l2 with
     | Sy LPar :: r2 => (a <~ xpargs depth RPar ;; _ <~ need Semi ;; pret (SStatic t x a)) r2
     | _ => (_ <~ need Semi ;; pret (SStatic t x [])) l2
     end) r
  | Kw KConst :: r => (t <~ ptype depth ;; _ <~ need Star ;; x <~ ident ;; _ <~ need Eq ;; e <~ xp ;; _ <~ need Semi ;; pret (SPointer t x e)) r
  | Id a :: Sy LPar :: r =>
    if streqb a "static_assert" then
      (e <~ xp ;; _ <~ need Comma ;; fun l2 => match l2 with Str _ :: r2 => (_ <~ need RPar ;; _ <~ need Semi ;; pret (SAssert e)) r2 | _ => None end) r
    else None
  | _ => (e <~ xpun depth ;; _ <~ need Eq ;; v <~ xp ;; _ <~ need Semi ;; match e with XDot o f => pret (SSet o f v) | _ => none end) l
  end.
Definition pxbody : P (list xs) := _ <~ need LBrace ;; pmany pxs depth.
(** Parameters: const may be on either side of the type. *)
Definition xparam : P param := c <~ pconst ;; t <~ ptype depth ;; d <~ pconst ;; p <~ ppass ;; x <~ ident ;; pret (Par (c || d) t p x).
Fixpoint xparams (n : nat) : P (list param) :=
  match n with
  | 0%nat => none
  | S m => a <~ xparam ;; b <~ opt Comma ;; if b : bool then (r <~ xparams m ;; pret (a :: r)) else (_ <~ need RPar ;; pret [a])
  end.
Definition xformals : P (list param) := _ <~ need LPar ;; b <~ opt RPar ;; if b : bool then pret [] else xparams depth.

(** The parts of a class. *)
Fixpoint xinits (n : nat) : P (list (string * xe)) :=
  match n with
  | 0%nat => none
  | S m => f <~ ident ;; _ <~ need LPar ;; e <~ xp ;; _ <~ need RPar ;; b <~ opt Comma ;;
           if b : bool then (r <~ xinits m ;; pret ((f, e) :: r)) else pret [(f, e)]
  end.
Definition pxname : P mname :=
  fun l => match l with Kw KOperator :: Sy y :: r => Some (MOper y, r) | Id s :: r => Some (MName s, r) | _ => None end.
Definition xmrest (pub st c : bool) (t : cty) (p : pass) (n : mname) : P xpart :=
  ps <~ xformals ;; k <~ pconst ;; _ <~ optid "noexcept" ;; s <~ opt Semi ;;
  if s : bool then pret (PMeth (XMeth pub st c t p n ps k None)) else (b <~ pxbody ;; pret (PMeth (XMeth pub st c t p n ps k (Some b)))).
Definition xcrest (pub : bool) : P xpart :=
  ps <~ xformals ;; _ <~ optid "noexcept" ;; c <~ opt Colon ;;
  i <~ (if c : bool then xinits depth else pret []) ;; b <~ pxbody ;; pret (PCtor (XCtor pub ps i b)).
Definition xpart_of (cls : string) (pub : bool) : P xpart :=
  fun l =>
  match l with
  | Kw KFriend :: Kw KClass :: Id n :: Sy Semi :: r => Some (PFriend n, r)
  | Kw KPublic :: Sy Colon :: r => Some (PAccess true, r)
  | Sy Tilde :: Id n :: Sy LPar :: Sy RPar :: Sy Eq :: Kw KDefault :: Sy Semi :: r => if streqb n cls then Some (PDtor, r) else None
  | Kw KOperator :: Kw KBool :: r => xmrest pub false false (Ct ["bool"] []) ByValue (MConv (Ct ["bool"] [])) r
  | Kw KOperator :: Id n :: r => xmrest pub false false (Ct [n] []) ByValue (MConv (Ct [n] [])) r
  | Kw KStatic :: r => (c <~ pconst ;; t <~ ptype depth ;; p <~ ppass ;; n <~ pxname ;; xmrest pub true c t p n) r
  | Id n :: Sy LPar :: _ => if streqb n cls then (_ <~ ident ;; xcrest pub) l else None
  | Id n :: Sy Colon :: r => if streqb n "private" then Some (PAccess false, r) else None
  | _ =>
    (c <~ pconst ;; t <~ ptype depth ;; p <~ ppass ;; n <~ pxname ;; fun l2 =>
     match c, p, n, l2 with
     | false, ByValue, MName x, Sy Semi :: r2 => Some (PField t x pub, r2)
     | _, _, _, _ => xmrest pub false c t p n l2
     end) l
  end.
(** Up to a closing brace; a stray semicolon is skipped. Members are private until said otherwise. *)
Fixpoint xparts (cls : string) (pub : bool) (n : nat) : P (list xpart) :=
  match n with
  | 0%nat => none
  | S m => fun l =>
    match l with
    | Sy RBrace :: r => Some ([], r)
    | Sy Semi :: r => xparts cls pub m r
    | _ => (x <~ xpart_of cls pub ;; u <~ xparts cls (match x with PAccess b => b | _ => pub end) m ;; pret (x :: u)) l
    end
  end.

(** The members of a data_type_information. *)
Definition pxmember : P xmember :=
  fun l =>
  match l with
  | Kw KUsing :: r => (n <~ ident ;; _ <~ need Eq ;; t <~ ptype depth ;; _ <~ need Semi ;; pret (MUsing n t)) r
  | Kw KStatic :: Id c :: Kw KConst :: Id t :: Sy Star :: Id n :: Sy Eq :: Str s :: Sy Semi :: r =>
    if streqb c "constexpr" && streqb t "char" then Some (MText n s, r) else None
  | Kw KStatic :: Kw KConst :: r => (t <~ ptype depth ;; n <~ ident ;; _ <~ need Semi ;; pret (MDecl t n)) r
  | Kw KStatic :: r => (_ <~ needid "constexpr" ;; t <~ ptype depth ;; n <~ ident ;; _ <~ need Eq ;; e <~ xp ;; _ <~ need Semi ;; pret (MValue t n e)) r
  | _ => None
  end.
(** The members of a union of arrays. *)
Definition pxarray : P (cty * (string * N)) :=
  t <~ ptype depth ;; x <~ ident ;; _ <~ bad lbracket ;; n <~ pnumber ;; _ <~ bad rbracket ;; _ <~ need Semi ;; pret (t, (x, n)).
(** template <> struct ... , after struct *)
Definition pspec : P xitem :=
  q <~ qname depth ;; _ <~ need CppText.Lt ;; t <~ ptype depth ;; _ <~ need Gt ;; _ <~ need LBrace ;;
  if qeqb q ["data_type_information"] then (ms <~ pmany pxmember depth ;; _ <~ need Semi ;; pret (JInfo t ms)) else
  if qeqb q ["std"; "hash"] then
    (r <~ ptype depth ;; fun l =>
     match l with
     | Kw KOperator :: Sy LPar :: Sy RPar :: l2 =>
       (ps <~ xformals ;; _ <~ needkw KConst ;; _ <~ needid "noexcept" ;; b <~ pxbody ;; _ <~ need RBrace ;; _ <~ need Semi ;;
        match ps with [p] => pret (JHash t r p b) | _ => none end) l2
     | _ => None
     end)
  else none.
(** Skips tokens up to a semicolon or the end of a block in braces. *)
Fixpoint skip (d : nat) (l : list tok) : option (list tok) :=
  match l with
  | [] => None
  | Sy LBrace :: r => skip (S d) r
  | Sy RBrace :: r => match d with 0%nat => None | 1%nat => Some r | S e => skip e r end
  | Sy Semi :: r => match d with 0%nat => Some r | _ => skip d r end
  | _ :: r => skip d r
  end.
Definition pvariable (t : cty) : P xitem :=
  fun l =>
  match l with
  | Id a :: Sy CppText.Lt :: r =>
    if streqb a "data_type_information" then
      (u <~ ptype depth ;; _ <~ need Gt ;; _ <~ need Colons ;; m <~ ident ;; _ <~ need Eq ;; e <~ xp ;; _ <~ need Semi ;; pret (JStatic t u m e)) r
    else None
  | _ => (n <~ ident ;; b <~ opt Eq ;; if b : bool then (e <~ xp ;; _ <~ need Semi ;; pret (JConst t n (Some e))) else (_ <~ need Semi ;; pret (JConst t n None))) l
  end.
Definition pitem : P xitem :=
  fun l =>
  match l with
  | Sy Semi :: r => Some (JNone, r)
  | Kw KClass :: Id n :: Sy LBrace :: r => (ps <~ xparts n false depth ;; _ <~ need Semi ;; pret (JClass (XClass n ps))) r
  | Kw KConst :: r => (t <~ ptype depth ;; pvariable t) r
  | Kw KInline :: Kw KBool :: Kw KOperator :: Sy y :: r => (ps <~ xformals ;; b <~ pxbody ;; pret (JOper y ps b)) r
  | Kw KInline :: Id s :: Sy Colons :: Id o :: _ =>
    if streqb s "std" && streqb o "ostream" then match skip 0 l with Some r => Some (JNone, r) | None => None end else None
  | Kw KInline :: r =>
    (c <~ pconst ;; t <~ ptype depth ;; _ <~ need Star ;; _ <~ needid "value_ptr" ;; ps <~ xformals ;; b <~ pxbody ;;
     match ps with [p] => pret (JPtr c t p b) | _ => none end) r
  | Id w :: r =>
    if streqb w "typedef" then (t <~ ptype depth ;; n <~ ident ;; _ <~ need Semi ;; pret (JTypedef t n)) r else
    if streqb w "constexpr" then (t <~ ptype depth ;; pvariable t) r else
    if streqb w "enum" then
      match r with
      | Kw KClass :: Id n :: Sy LBrace :: r2 => match penumerators r2 with Some (es, Sy Semi :: r3) => Some (JEnum (n, es), r3) | _ => None end
      | _ => None
      end
    else if streqb w "struct" then
      (n <~ ident ;; _ <~ need LBrace ;; _ <~ needid "union" ;; _ <~ need LBrace ;; fs <~ pmany pxarray depth ;; _ <~ need Semi ;;
       _ <~ need RBrace ;; _ <~ need Semi ;; pret (JUnion n fs)) r
    else if streqb w "template" then
      match r with
      | Sy CppText.Lt :: Sy Gt :: r2 => (_ <~ needid "struct" ;; pspec) r2
      | Sy CppText.Lt :: Kw KClass :: Id _ :: Sy Gt :: Id s :: Id n :: Sy Semi :: r2 =>
        if streqb s "struct" && streqb n "data_type_information" then Some (JNone, r2) else None
      | _ => None
      end
    else if streqb w "std" then match skip 0 l with Some r2 => Some (JNone, r2) | None => None end
    else None
  | _ => None
  end.
(** A file: declarations, those of namespace ISD among them; [k] bounds their number. *)
Fixpoint pitems (k : nat) (inside : bool) (l : list tok) : option (list xitem) :=
  match k with
  | 0%nat => None
  | S j =>
    match l, inside with
    | [], false => Some []
    | Kw KNamespace :: Id n :: Sy LBrace :: r, false => if streqb n "ISD" then pitems j true r else None
    | Sy RBrace :: Sy Semi :: r, true => pitems j false r
    | _, _ => match pitem l with Some (x, r) => match pitems j inside r with Some u => Some (x :: u) | None => None end | None => None end
    end
  end.
Definition parse_data (lines : list string) : option (list xitem) := let l := tokens lines in pitems (S (List.length l)) false l.

(** ** Types *)
(** A type and its layout: integers of [w] bytes, IEEE 754 numbers of [w] bytes, the types of glm, GUID, unions of arrays ([w] bytes),
    classes with one member. *)
Inductive lt :=
| LBool | LInt (sign : bool) (w : N) | LFloat (w : N) | LVec (n : N) (e : lt) | LMat (c r : N) (e : lt) | LQua (e : lt) | LString | LGuid
| LUnion (n : string) (w : N) | LClass (n f : string) (t : lt).
Fixpoint lt_eqb (a b : lt) : bool :=
  match a, b with
  | LBool, LBool | LString, LString | LGuid, LGuid => true
  | LInt s w, LInt t u => Bool.eqb s t && (w =? u)
  | LFloat w, LFloat u => w =? u
  | LVec n e, LVec m f => (n =? m) && lt_eqb e f
  | LMat c r e, LMat d q f => (c =? d) && (r =? q) && lt_eqb e f
  | LQua e, LQua f => lt_eqb e f
  | LUnion n w, LUnion m u => streqb n m && (w =? u)
  | LClass n f t, LClass m g u => streqb n m && streqb f g && lt_eqb t u
  | _, _ => false
  end.
(** sizeof, for the types that are stored as images *)
Fixpoint lsize (t : lt) : option N :=
  match t with
  | LBool | LString => None
  | LInt _ w | LFloat w | LUnion _ w => Some w
  | LVec n e => match lsize e with Some w => Some (n * w) | None => None end
  | LMat c r e => match lsize e with Some w => Some (c * r * w) | None => None end
  | LQua e => match lsize e with Some w => Some (4 * w) | None => None end
  | LGuid => Some 16
  | LClass _ _ u => lsize u
  end.
(** The types of the language, of the standard library and of glm. *)
Definition int_name (s : string) : option lt := assoc s
  [ ("int8_t", LInt true 1); ("int16_t", LInt true 2); ("int32_t", LInt true 4); ("int64_t", LInt true 8);
    ("uint8_t", LInt false 1); ("uint16_t", LInt false 2); ("uint32_t", LInt false 4); ("uint64_t", LInt false 8); ("size_t", LInt false 8);
    ("string", LString) ].
Definition glm_name (s : string) : option lt := assoc s
  [ ("i8", LInt true 1); ("i16", LInt true 2); ("i32", LInt true 4); ("i64", LInt true 8);
    ("u8", LInt false 1); ("u16", LInt false 2); ("u32", LInt false 4); ("u64", LInt false 8); ("f32", LFloat 4); ("f64", LFloat 8);
    ("ivec2", LVec 2 (LInt true 4)); ("ivec3", LVec 3 (LInt true 4)); ("ivec4", LVec 4 (LInt true 4));
    ("uvec2", LVec 2 (LInt false 4)); ("uvec3", LVec 3 (LInt false 4)); ("uvec4", LVec 4 (LInt false 4));
    ("vec2", LVec 2 (LFloat 4)); ("vec3", LVec 3 (LFloat 4)); ("vec4", LVec 4 (LFloat 4));
    ("mat2", LMat 2 2 (LFloat 4)); ("mat3", LMat 3 3 (LFloat 4)); ("mat4", LMat 4 4 (LFloat 4)) ].
Definition plain_name (s : string) : option lt := assoc s
  [ ("bool", LBool); ("float", LFloat 4); ("double", LFloat 8); ("size_t", LInt false 8); ("GUID", LGuid) ].
Definition packed (q : list cty) : bool := match q with [Ct ["glm"; p] []] => streqb p "packed_highp" | _ => false end.
Definition small (s : string) : option N := match number s with Some n => if (2 <=? n) && (n <=? 4) then Some n else None | None => None end.

(** ** Values *)
(** Objects; and pointers: is the pointee constant, its type, the variable whose first byte is pointed to, the size of that object, its
    value. *)
Inductive xv := XO (t : lt) (v : val) | XP (c : bool) (t : lt) (x : string) (size : N) (v : val).
Definition env : Type := list (string * (bool * xv)).
(** What is declared: types, unions, classes, constants, enumerations, informations, static members, functions. *)
Record genv := GE {
  ge_types : list (string * lt); ge_unions : list (string * list (lt * (string * N))); ge_classes : list (string * xclass);
  ge_consts : list (string * xv); ge_enums : list enumeration; ge_infos : list (lt * list xmember); ge_statics : list ((lt * string) * xv);
  ge_hashes : list (lt * (cty * param * list xs)); ge_opers : list ((sym * lt) * (list param * list xs));
  ge_ptrs : list ((bool * lt) * (cty * param * list xs)) }.
Definition resolve (G : genv) (t : cty) : option lt :=
  match t with
  | Ct [n] [] => match assoc n (ge_types G) with Some u => Some u | None => plain_name n end
  | Ct [a; n] [] =>
    if streqb a "ISD" then assoc n (ge_types G) else if streqb a "std" then int_name n else if streqb a "glm" then glm_name n else None
  | Ct [a; b] [[Ct [k] []]; [Ct [c; e] []]; q] =>
    if streqb a "glm" && streqb b "vec" && streqb c "glm" && packed q then
      match small k, glm_name e with Some n, Some u => Some (LVec n u) | _, _ => None end
    else None
  | Ct [a; b] [[Ct [k] []]; [Ct [j] []]; [Ct [c; e] []]; q] =>
    if streqb a "glm" && streqb b "mat" && streqb c "glm" && packed q then
      match small k, small j, glm_name e with Some n, Some m, Some u => Some (LMat n m u) | _, _, _ => None end
    else None
  | Ct [a; b] [[Ct [c; e] []]; q] =>
    if streqb a "glm" && streqb b "qua" && streqb c "glm" && packed q then match glm_name e with Some u => Some (LQua u) | None => None end else None
  | _ => None
  end.

(** Integers. *)
Definition int_val (s : bool) (w : N) (z : Z) : val := VP (le (N.to_nat w) (Z.to_N (z mod 2 ^ Z.of_N (8 * w)))).
Definition int_of (s : bool) (i : list byte) : Z := if s then signed i else Z.of_N (of_le i).
Definition int_lit (s : bool) (w : N) (z : Z) : xv := XO (LInt s w) (int_val s w z).
(** A literal: decimal or hexadecimal, with a suffix for its type; without one it is an int. *)
Fixpoint before (c : ascii) (s : string) : string := match s with "" => "" | String d r => if Ascii.eqb c d then "" else String d (before c r) end.
Fixpoint after (c : ascii) (s : string) : option string := match s with "" => None | String d r => if Ascii.eqb c d then Some r else after c r end.
Definition literal (s : string) : option xv :=
  match number (before "U" s), after "U" s with
  | Some n, None => if n <? 2 ^ 31 then Some (int_lit true 4 (Z.of_N n)) else None
  | Some n, Some w =>
    if streqb w "i16" then Some (int_lit false 2 (Z.of_N n)) else
    if streqb w "i32" then Some (int_lit false 4 (Z.of_N n)) else
    if streqb w "i64" then Some (int_lit false 8 (Z.of_N n)) else None
  | _, _ => None
  end.
(** Only the literals 0.0 and 0.0f *)
Definition real (a b : string) : option xv :=
  if streqb a "0" && streqb b "0f" then Some (XO (LFloat 4) (VP (rep x00 4)))
  else if streqb a "0" && streqb b "0" then Some (XO (LFloat 8) (VP (rep x00 8))) else None.
(** The macros of <cstdint> and <cfloat>; the largest finite numbers have all bits of the exponent set but the last, and all bits of the
    mantissa. *)
Definition macro (s : string) : option xv := assoc s
  [ ("INT8_MIN", int_lit true 4 (- 2 ^ 7)); ("INT8_MAX", int_lit true 4 (2 ^ 7 - 1)); ("UINT8_MAX", int_lit true 4 (2 ^ 8 - 1));
    ("INT16_MIN", int_lit true 4 (- 2 ^ 15)); ("INT16_MAX", int_lit true 4 (2 ^ 15 - 1)); ("UINT16_MAX", int_lit true 4 (2 ^ 16 - 1));
    ("INT32_MIN", int_lit true 4 (- 2 ^ 31)); ("INT32_MAX", int_lit true 4 (2 ^ 31 - 1)); ("UINT32_MAX", int_lit false 4 (2 ^ 32 - 1));
    ("INT64_MIN", int_lit true 8 (- 2 ^ 63)); ("INT64_MAX", int_lit true 8 (2 ^ 63 - 1)); ("UINT64_MAX", int_lit false 8 (2 ^ 64 - 1));
    ("FLT_MAX", XO (LFloat 4) (VP (le 4 0x7f7fffff))); ("DBL_MAX", XO (LFloat 8) (VP (le 8 0x7fefffffffffffff))) ].

Definition promote (s : bool) (w : N) : bool * N := if w <? 4 then (true, 4) else (s, w).
Definition invert (v : xv) : option xv :=
  match v with
  | XO (LInt s w) (VP i) => let '(s', w') := promote s w in Some (int_lit s' w' (- int_of s i - 1))
  | _ => None
  end.
(** The sign bit is the highest bit. *)
Definition negate (v : xv) : option xv :=
  match v with
  | XO (LFloat w) (VP i) => Some (XO (LFloat w) (VP (le (N.to_nat w) (N.lxor (of_le i) (2 ^ (8 * w - 1))))))
  | _ => None
  end.
Definition xor_of (a b : xv) : option xv :=
  match a, b with
  | XO (LInt false w) (VP i), XO (LInt false u) (VP j) => if (w =? u) && (4 <=? w) then Some (XO (LInt false w) (VP (le (N.to_nat w) (N.lxor (of_le i) (of_le j))))) else None
  | _, _ => None
  end.
Definition truth_val (b : bool) : xv := XO LBool (VB b).
Definition truth_of (v : xv) : option bool := match v with XO LBool (VB b) => Some b | _ => None end.
(** Comparisons of integers of the same type, and of GUIDs (guiddef.h: four words). *)
Definition int_cmp (o : sym) (x y : Z) : option bool :=
  match o with EqEq => Some (x =? y)%Z | BangEq => Some (negb (x =? y)%Z) | CppText.Lt => Some (x <? y)%Z | _ => None end.
Definition compare (o : sym) (a b : xv) : option bool :=
  match a, b with
  | XO (LInt s w) (VP i), XO (LInt t u) (VP j) => if Bool.eqb s t && (w =? u) then int_cmp o (int_of s i) (int_of t j) else None
  | XO LGuid (VP i), XO LGuid (VP j) => match o with EqEq => Some (words_eq 4 4 i j) | BangEq => Some (negb (words_eq 4 4 i j)) | _ => None end
  | _, _ => None
  end.
(** memcmp: a negative number, zero or a positive number; the model takes -1, 0 and 1. *)
Definition memcmp_val (n : N) (a b : list byte) : xv :=
  int_lit true 4 (match lex (take n a) (take n b) with Datatypes.Lt => -1 | Datatypes.Eq => 0 | Datatypes.Gt => 1 end).
Definition zeros (i : list byte) : bool := forallb (Byte.eqb x00) i.
(** Conversions without calls. *)
Definition convert (t : lt) (v : xv) : option xv :=
  match v with
  | XO u x =>
    if lt_eqb t u then Some v else
    match t, u, x with
    | LInt s w, LInt s' w', VP i => Some (XO t (int_val s w (int_of s' i)))
    | LFloat w, LFloat _, VP i => if zeros i then Some (XO t (VP (rep x00 w))) else None
    | _, _, _ => None
    end
  | XP _ _ _ _ _ => None
  end.
Fixpoint all_some {A} (l : list (option A)) : option (list A) :=
  match l with [] => Some [] | Some a :: r => match all_some r with Some u => Some (a :: u) | None => None end | None :: _ => None end.
Definition image (v : option xv) : option (list byte) := match v with Some (XO _ (VP i)) => Some i | _ => None end.
Definition images (l : list (option xv)) : option (list byte) := match all_some (map image l) with Some ls => Some (List.concat ls) | None => None end.
Definition ctors (l : list xpart) : list xctor := flat_map (fun x => match x with PCtor c => [c] | _ => [] end) l.
Definition methods (l : list xpart) : list xmeth := flat_map (fun x => match x with PMeth c => [c] | _ => [] end) l.
Definition fields (l : list xpart) : list (cty * string) := flat_map (fun x => match x with PField t n _ => [(t, n)] | _ => [] end) l.
Definition mname_eqb (a b : mname) : bool :=
  match a, b with
  | MName x, MName y => streqb x y | MOper x, MOper y => sym_eqb x y | MConv x, MConv y => cty_eqb x y | _, _ => false
  end.
Fixpoint find_first {A} (p : A -> bool) (l : list A) : option A := match l with [] => None | a :: r => if p a then Some a else find_first p r end.
Fixpoint set_var (x : string) (v : xv) (E : env) : env :=
  match E with [] => [] | (y, (c, w)) :: r => if streqb x y then (y, (c, v)) :: r else (y, (c, w)) :: set_var x v r end.
(** The variable an expression names. *)
Definition named (e : xe) : option string := match e with XName [x] => Some x | XDeref XThis => Some "this" | _ => None end.

Section Calls.
Context (G : genv) (ev : env -> xe -> option xv).
(** One statement; Some of a value: it returned. *)
Definition exec1 (E : env) (s : xs) : option (option xv * env) :=
  match s with
  | SRet e => match ev E e with Some v => Some (Some v, E) | None => None end
  | SSet o f e =>
    match named o with
    | Some x =>
      match assoc x E, ev E e with
      | Some (false, XO (LClass n g t) _), Some w =>
        if streqb f g then match convert t w with Some (XO _ v) => Some (None, set_var x (XO (LClass n g t) v) E) | _ => None end else None
      | _, _ => None
      end
    | None => None
    end
  | SPointer t x e =>
    match resolve G t, ev E e with
    | Some u, Some (XP c u' y z v) => if lt_eqb u u' then Some (None, (x, (false, XP true u y z v)) :: E) else None
    | _, _ => None
    end
  | SStatic t x l => match t with Ct q [] => match ev E (XCall q l) with Some v => Some (None, (x, (false, v)) :: E) | None => None end | _ => None end
  | SAssert e => match ev E e with Some v => match truth_of v with Some true => Some (None, E) | _ => None end | None => None end
  end.
Fixpoint exec (E : env) (l : list xs) : option (option xv * env) :=
  match l with
  | [] => Some (None, E)
  | s :: r => match exec1 E s with Some (None, E') => exec E' r | x => x end
  end.
(** The parameters; an argument has exactly the type of its parameter. *)
Fixpoint binds (ps : list param) (args : list xv) : option env :=
  match ps, args with
  | [], [] => Some []
  | p :: ps', XO u v :: args' =>
    match resolve G (p_type p), binds ps' args' with
    | Some t, Some E => if lt_eqb t u then Some ((p_name p, (p_const p, XO u v)) :: E) else None
    | _, _ => None
    end
  | _, _ => None
  end.
Definition returns (t : cty) (r : option (option xv * env)) : option (xv * env) :=
  match r, resolve G t with
  | Some (Some (XO u v), E), Some u' => if lt_eqb u u' then Some (XO u v, E) else None
  | _, _ => None
  end.
Definition call (t : cty) (ps : list param) (this : env) (args : list xv) (b : list xs) : option (xv * env) :=
  match binds ps args with Some E => returns t (exec (E ++ this) b) | None => None end.
(** A constructor is called for the types of the arguments and for lvalues ([mv] false) or rvalues. *)
Definition takes (mv : bool) (ts : list lt) (ps : list param) : bool :=
  (fix go (ts : list lt) (ps : list param) : bool :=
     match ts, ps with
     | [], [] => true
     | t :: ts', p :: ps' =>
       match resolve G (p_type p) with Some u => lt_eqb t u | None => false end
       && (match p_pass p with ByMove => mv && negb (p_const p) | ByRef => negb mv && p_const p | _ => false end) && go ts' ps'
     | _, _ => false
     end) ts ps.
Definition type_of (v : xv) : lt := match v with XO t _ => t | XP _ t _ _ _ => t end.
(** A class with one member, which the constructor must initialise. The member is given the value of its initialiser, then the body runs. *)
Definition build (mv : bool) (n f : string) (t : lt) (args : list xv) : option (xv * env) :=
  match assoc n (ge_classes G) with
  | Some c =>
    match find_first (fun k => takes mv (map type_of args) (xk_params k)) (ctors (xc_parts c)) with
    | Some k =>
      match xk_inits k, binds (xk_params k) args with
      | [(g, e)], Some E =>
        if streqb f g then
          match ev E e with
          | Some w =>
            match convert t w with
            | Some (XO _ v) =>
              match exec (E ++ [("this", (false, XO (LClass n f t) v))]) (xk_body k) with
              | Some (None, E') => match assoc "this" E' with Some (_, o) => Some (o, E') | None => None end
              | _ => None
              end
            | _ => None
            end
          | None => None
          end
        else None
      | _, _ => None
      end
    | None => None
    end
  | None => None
  end.
(** A member function of an object, by its name and the types of its arguments. *)
Definition method (m : mname) (mv : bool) (o : xv) (args : list xv) : option (xv * env) :=
  match o with
  | XO (LClass n f t) v =>
    match assoc n (ge_classes G) with
    | Some c =>
      match find_first (fun k => mname_eqb m (xm_name k) && negb (xm_static k) && takes mv (map type_of args) (xm_params k)) (methods (xc_parts c)) with
      | Some k => match xm_body k with Some b => call (xm_type k) (xm_params k) [("this", (xm_this k, o))] args b | None => None end
      | None => None
      end
    | None => None
    end
  | _ => None
  end.
(** Conversion of an object of a class: the conversion function to the type. *)
Definition conversion (t : lt) (o : xv) : option xv :=
  match o with
  | XO (LClass n f u) v =>
    match assoc n (ge_classes G) with
    | Some c =>
      match find_first (fun k => match xm_name k with MConv r => match resolve G r with Some t' => lt_eqb t t' | None => false end | _ => false end) (methods (xc_parts c)) with
      | Some k => match xm_body k with Some b => match call (xm_type k) [] [("this", (xm_this k, o))] [] b with Some (r, _) => Some r | None => None end | None => None end
      | None => None
      end
    | None => None
    end
  | _ => None
  end.
Definition cast (t : lt) (v : xv) : option xv := match convert t v with Some r => Some r | None => conversion t v end.
(** t( args ) *)
Definition construct (t : lt) (args : list xv) : option xv :=
  match t, args with
  | LVec n e, _ => if N.of_nat (List.length args) =? n then match images (map (convert e) args) with Some i => Some (XO t (VP i)) | None => None end else None
  | LMat c r e, _ => if N.of_nat (List.length args) =? c * r then match images (map (convert e) args) with Some i => Some (XO t (VP i)) | None => None end else None
  | LQua e, [w; x; y; z] => match images (map (convert e) [x; y; z; w]) with Some i => Some (XO t (VP i)) | None => None end
  | LClass n f u, _ => match build false n f u args with Some (o, _) => Some o | None => None end
  | _, [v] => cast t v
  | _, _ => None
  end.
(** Initialisation from a list in braces. *)
Definition listed_image (E : env) (u : lt) (l : list xe) : list (option xv) :=
  map (fun e => match ev E e with Some v => convert u v | None => None end) l.
Definition initialise (E : env) (t : lt) (e : xe) : option xv :=
  match e with
  | XList l =>
    match t, l with
    | LGuid, [a; b; c; XList d] =>
      if Nat.eqb (List.length d) 8 then
        match images (listed_image E (LInt false 4) [a] ++ listed_image E (LInt false 2) [b; c] ++ listed_image E (LInt false 1) d) with
        | Some i => Some (XO t (VP i)) | None => None
        end
      else None
    | LUnion n w, _ =>
      match assoc n (ge_unions G) with
      | Some ((u, (_, k)) :: _) =>
        if N.of_nat (List.length l) =? k then match images (listed_image E u l) with Some i => Some (XO t (VP i)) | None => None end else None
      | _ => None
      end
    | _, _ => None
    end
  | _ =>
    match ev E e with
    | Some v =>
      match t with
      | LClass n f u => match e with XCall [m] _ => if streqb m n then Some v else construct t [v] | _ => construct t [v] end
      | _ => cast t v
      end
    | None => None
    end
  end.
(** An operator: of the language, a function of the file, or a member of a class. *)
Definition operator (o : sym) (a b : xv) : option xv :=
  match compare o a b with
  | Some r => Some (truth_val r)
  | None =>
    match a with
    | XO (LClass _ _ _) _ => match method (MOper o) false a [b] with Some (r, _) => Some r | None => None end
    | _ =>
      match find_first (fun x => sym_eqb o (fst (fst x)) && lt_eqb (type_of a) (snd (fst x))) (ge_opers G) with
      | Some (_, (ps, body)) => match call (Ct ["bool"] []) ps [] [a; b] body with Some (r, _) => Some r | None => None end
      | None => None
      end
    end
  end.
Definition static_call (n m : string) : option xv :=
  match assoc n (ge_classes G) with
  | Some c =>
    match find_first (fun k => mname_eqb (MName m) (xm_name k) && xm_static k && Nat.eqb (List.length (xm_params k)) 0) (methods (xc_parts c)) with
    | Some k => match xm_body k with Some b => match call (xm_type k) [] [] [] b with Some (r, _) => Some r | None => None end | None => None end
    | None => None
    end
  | None => None
  end.
Definition hashed (t : lt) (v : xv) : option xv :=
  match find_first (fun x => lt_eqb t (fst x)) (ge_hashes G) with
  | Some (_, (r, p, b)) => match call r [p] [] [v] b with Some (x, _) => Some x | None => None end
  | None => None
  end.
Definition slot (E : env) (x : string) : option (bool * xv) :=
  match assoc x E with Some y => Some y | None => match assoc x (ge_consts G) with Some v => Some (true, v) | None => None end end.
Definition field_of (v : xv) (f : string) : option xv :=
  match v with
  | XO (LClass n g t) w => if streqb f g then Some (XO t w) else None
  | XO (LUnion n w) x =>
    match assoc n (ge_unions G) with
    | Some fs =>
      match find_first (fun y => streqb f (fst (snd y))) fs with
      | Some (u, (_, k)) => match lsize u with Some s => Some (XP false u "" (k * s) x) | None => None end
      | None => None
      end
    | None => None
    end
  | _ => None
  end.
Definition element (v i : xv) : option xv :=
  match v, i with
  | XP _ t _ z (VP m), XO (LInt s _) (VP j) =>
    match lsize t with
    | Some w => let k := int_of s j in if (0 <=? k)%Z && ((Z.to_N k + 1) * w <=? z) then Some (XO t (VP (take w (drop (Z.to_N k * w) m)))) else None
    | None => None
    end
  | _, _ => None
  end.
(** The components of a type of glm. *)
Definition component (t : lt) : option lt := match t with LVec _ e | LMat _ _ e | LQua e => Some e | _ => None end.
Definition size_or_0 (t : lt) : N := match lsize t with Some n => n | None => 0 end.
Definition call_named (E : env) (q : list string) (l : list xe) : option xv :=
  match q, l with
  | ["memcmp"], [a; b; n] =>
    match ev E a, ev E b, ev E n with
    | Some (XP _ _ _ z (VP i)), Some (XP _ _ _ y (VP j)), Some (XO (LInt false 8) (VP k)) =>
      if (of_le k <=? z) && (of_le k <=? y) then Some (memcmp_val (of_le k) i j) else None
    | _, _, _ => None
    end
  | ["glm"; f], [XName [x]] =>
    if streqb f "value_ptr" then
      match assoc x E with
      | Some (c, XO t v) => match component t with Some u => Some (XP c u x (size_or_0 t) v) | None => None end
      | _ => None
      end
    else None
  | [n; m], [] => static_call n m
  | _, _ => match resolve G (Ct q []), all_some (map (ev E) l) with Some t, Some args => construct t args | _, _ => None end
  end.
End Calls.

(** Expressions; [n] bounds the nesting of expressions and calls. *)
Fixpoint ev (n : nat) (G : genv) (E : env) (e : xe) {struct n} : option xv :=
  match n with
  | 0%nat => None
  | S m =>
    let r := ev m G in
    match e with
    | XNum s => literal s
    | XReal a b => real a b
    | XTruth b => Some (truth_val b)
    | XName [x] => match slot G E x with Some (_, v) => Some v | None => macro x end
    | XName _ => None
    | XDeref XThis => match assoc "this" E with Some (_, v) => Some v | None => None end
    | XThis | XDeref _ | XList _ => None
    | XTilde a => match r E a with Some v => invert v | None => None end
    | XMinus a => match r E a with Some v => negate v | None => None end
    | XAddr (XName [x]) => match assoc x E with Some (c, XO t v) => Some (XP c t x (size_or_0 t) v) | _ => None end
    | XAddr _ => None
    | XXor a b => match r E a, r E b with Some v, Some w => xor_of v w | _, _ => None end
    | XCmp o a b => match r E a, r E b with Some v, Some w => operator G r o v w | _, _ => None end
    | XAnd a b =>
      match r E a with
      | Some v => match truth_of v with Some true => r E b | Some false => Some (truth_val false) | None => None end
      | None => None
      end
    | XOr a b =>
      match r E a with
      | Some v => match truth_of v with Some true => Some (truth_val true) | Some false => r E b | None => None end
      | None => None
      end
    | XDot a f => match r E a with Some v => field_of G v f | None => None end
    | XIndex a i => match r E a, r E i with Some v, Some k => element v k | _, _ => None end
    | XCall q l => call_named G r E q l
    | XHashed t l =>
      match resolve G t, all_some (map (r E) l) with Some u, Some [v] => hashed G r u v | _, _ => None end
    | XCast t a => match resolve G t, r E a with Some u, Some (XP _ _ x z v) => Some (XP true u x z v) | _, _ => None end
    | XSizeof t => match resolve G t with Some u => match lsize u with Some w => Some (int_lit false 8 (Z.of_N w)) | None => None end | None => None end
    end
  end.
Definition deep : nat := 40.

(** ** Declarations, one after the other *)
Definition empty_genv : genv := GE [] [] [] [] [] [] [] [] [] [].
Definition unused {A} (n : string) (l : list (string * A)) : bool := match assoc n l with Some _ => false | None => true end.
Definition one_size (fs : list (lt * (string * N))) : option N :=
  match all_some (map (fun f => match lsize (fst f) with Some w => Some (w * snd (snd f)) | None => None end) fs) with
  | Some (w :: r) => if forallb (N.eqb w) r then Some w else None
  | _ => None
  end.
Definition find_decl (m : string) (l : list xmember) : option cty :=
  match find_first (fun x => match x with MDecl _ n => streqb n m | _ => false end) l with Some (MDecl t _) => Some t | _ => None end.
Definition oper_types (G : genv) (ps : list param) : option lt :=
  match ps with
  | [p; q] => match resolve G (p_type p), resolve G (p_type q) with
              | Some t, Some u => if lt_eqb t u && p_const p && p_const q then Some t else None
              | _, _ => None
              end
  | _ => None
  end.
Definition load (G : genv) (x : xitem) : option genv :=
  match G with
  | GE ts us cs ks es is ss hs os ps =>
    match x with
    | JNone => Some G
    | JTypedef t n => match resolve G t with Some u => if unused n ts then Some (GE ((n, u) :: ts) us cs ks es is ss hs os ps) else None | None => None end
    | JUnion n fs =>
      match all_some (map (fun f => match resolve G (fst f) with Some u => Some (u, snd f) | None => None end) fs) with
      | Some l => match one_size l with Some w => if unused n ts then Some (GE ((n, LUnion n w) :: ts) ((n, l) :: us) cs ks es is ss hs os ps) else None | None => None end
      | None => None
      end
    | JConst t n e =>
      match resolve G t, unused n ks with
      | Some u, true =>
        match (match e, u with
               | Some i, _ => initialise G (ev deep G) [] u i
               | None, LString => Some (XO LString (VS []))
               | None, _ => None
               end) with
        | Some v => Some (GE ts us cs ((n, v) :: ks) es is ss hs os ps)
        | None => None
        end
      | _, _ => None
      end
    | JStatic t of m e =>
      match resolve G t, resolve G of with
      | Some u, Some u' =>
        match find_first (fun i => lt_eqb u' (fst i)) is, find_first (fun s => lt_eqb u' (fst (fst s)) && streqb m (snd (fst s))) ss with
        | Some (_, ms), None =>
          match find_decl m ms with
          | Some t' =>
            match resolve G t' with
            | Some u2 => if lt_eqb u u2 then match initialise G (ev deep G) [] u e with Some v => Some (GE ts us cs ks es is (((u', m), v) :: ss) hs os ps) | None => None end else None
            | None => None
            end
          | None => None
          end
        | _, _ => None
        end
      | _, _ => None
      end
    | JClass c =>
      match fields (xc_parts c) with
      | [(t, f)] => match resolve G t with
                    | Some u => if unused (xc_name c) ts then Some (GE ((xc_name c, LClass (xc_name c) f u) :: ts) us ((xc_name c, c) :: cs) ks es is ss hs os ps) else None
                    | None => None
                    end
      | _ => None
      end
    | JEnum e => if enum_ok e && unused (fst e) es then Some (GE ts us cs ks (e :: es) is ss hs os ps) else None
    | JInfo t ms =>
      match resolve G t with
      | Some u => match find_first (fun i => lt_eqb u (fst i)) is with None => Some (GE ts us cs ks es ((u, ms) :: is) ss hs os ps) | Some _ => None end
      | None => None
      end
    | JHash t r p b =>
      match resolve G t, resolve G (p_type p) with
      | Some u, Some u' =>
        match find_first (fun i => lt_eqb u (fst i)) hs with
        | None => if lt_eqb u u' && p_const p then Some (GE ts us cs ks es is ss ((u, (r, p, b)) :: hs) os ps) else None
        | Some _ => None
        end
      | _, _ => None
      end
    | JOper o qs b =>
      match oper_types G qs with
      | Some u =>
        match find_first (fun y => sym_eqb o (fst (fst y)) && lt_eqb u (snd (fst y))) os with
        | None => Some (GE ts us cs ks es is ss hs (((o, u), (qs, b)) :: os) ps)
        | Some _ => None
        end
      | None => None
      end
    | JPtr c t p b =>
      match resolve G (p_type p), p_pass p with
      | Some u, ByRef =>
        match find_first (fun y => Bool.eqb (p_const p) (fst (fst y)) && lt_eqb u (snd (fst y))) ps with
        | None => if Bool.eqb c (p_const p) then Some (GE ts us cs ks es is ss hs os (((c, u), (t, p, b)) :: ps)) else None
        | Some _ => None
        end
      | _, _ => None
      end
    end
  end.
Fixpoint loads (G : genv) (l : list xitem) : option genv :=
  match l with [] => Some G | x :: r => match load G x with Some G' => loads G' r | None => None end end.
(** The two headers and the source file, compiled in this order. *)
Definition compile_data (header source pointers : list string) : option genv :=
  match parse_data header, parse_data source, parse_data pointers with
  | Some a, Some b, Some c => loads empty_genv (a ++ b ++ c)
  | _, _, _ => None
  end.

(** ** What a program can ask *)
Section Asked.
Context (G : genv).
Definition type_called (n : string) : option lt := resolve G (Ct [n] []).
(** data_type_information<t>: its members *)
Definition info_of (n : string) : option (lt * list xmember) :=
  match type_called n with Some t => find_first (fun i => lt_eqb t (fst i)) (ge_infos G) | None => None end.
Definition member_using (n m : string) : option lt :=
  match info_of n with
  | Some (_, ms) => match find_first (fun x => match x with MUsing y _ => streqb y m | _ => false end) ms with Some (MUsing _ t) => resolve G t | _ => None end
  | None => None
  end.
Definition member_text (n m : string) : option string :=
  match info_of n with
  | Some (_, ms) => match find_first (fun x => match x with MText y _ => streqb y m | _ => false end) ms with Some (MText _ s) => Some s | _ => None end
  | None => None
  end.
(** A constant: a number, or an enumerator. *)
Definition member_number (n m : string) : option N :=
  match info_of n with
  | Some (_, ms) =>
    match find_first (fun x => match x with MValue _ y _ => streqb y m | _ => false end) ms with
    | Some (MValue t _ e) =>
      match e, t with
      | XName [c; x], Ct [c'] [] => if streqb c c' then match assoc c (ge_enums G) with Some es => assoc x es | None => None end else None
      | _, _ => match resolve G t, ev deep G [] e with
                | Some u, Some v => match convert u v with Some (XO (LInt false _) (VP i)) => Some (of_le i) | _ => None end
                | _, _ => None
                end
      end
    | _ => None
    end
  | None => None
  end.
(** data_type_information<n>::m, a static member that is defined *)
Definition member_value (n m : string) : option val :=
  match type_called n with
  | Some t => match find_first (fun s => lt_eqb t (fst (fst s)) && streqb m (snd (fst s))) (ge_statics G) with Some (_, XO _ v) => Some v | _ => None end
  | None => None
  end.
(** Is data_type_information<n>::m declared? *)
Definition has_member (n m : string) : bool :=
  match info_of n with Some (_, ms) => match find_decl m ms with Some _ => true | None => false end | None => false end.
(** value_ptr( x ) for a variable of type n with value v; [c]: it is constant. The pointer's element type, whether it points to constants, and
    whether it points to the beginning of the variable. *)
Definition ask_ptr (c : bool) (n : string) (v : val) : option (lt * bool * bool) :=
  match type_called n with
  | Some t =>
    match find_first (fun y => Bool.eqb c (fst (fst y)) && lt_eqb t (snd (fst y))) (ge_ptrs G) with
    | Some (_, (r, p, b)) =>
      match exec G (ev deep G) [(p_name p, (c, XO t v))] b, resolve G r with
      | Some (Some (XP k u x _ _), _), Some u' => if lt_eqb u u' && (c || negb k) then Some (u, c, streqb x (p_name p)) else None
      | _, _ => None
      end
    | None => None
    end
  | None => None
  end.
(** a o b, for objects of type n *)
Definition ask_oper (o : sym) (n : string) (a b : val) : option bool :=
  match type_called n with
  | Some t => match operator G (ev deep G) o (XO t a) (XO t b) with Some v => truth_of v | None => None end
  | None => None
  end.
(** std::hash<n>{}( a ) *)
Definition ask_hash (n : string) (a : val) : option N :=
  match type_called n with
  | Some t => match hashed G (ev deep G) t (XO t a) with Some (XO (LInt false 8) (VP i)) => Some (of_le i) | _ => None end
  | None => None
  end.
(** The objects after a constructor or an assignment: the new object, and the argument. [mv]: the argument is an rvalue. *)
Definition ask_default (n : string) : option val :=
  match type_called n with
  | Some (LClass m f t) => match build G (ev deep G) false m f t [] with Some (XO _ v, _) => Some v | _ => None end
  | _ => None
  end.
Definition arg_after (E : env) : option val := match E with (_, (_, XO _ v)) :: _ => Some v | _ => None end.
Definition ask_build (mv : bool) (n from : string) (a : val) : option (val * val) :=
  match type_called n, type_called from with
  | Some (LClass m f t), Some u =>
    match build G (ev deep G) mv m f t [XO u a] with
    | Some (XO _ v, E) => match arg_after E with Some w => Some (v, w) | None => None end
    | _ => None
    end
  | _, _ => None
  end.
Definition ask_assign (mv : bool) (n : string) (a b : val) : option (val * val) :=
  match type_called n with
  | Some t =>
    match method G (ev deep G) (MOper Eq) mv (XO t a) [XO t b] with
    | Some (XO _ v, E) => match arg_after E with Some w => Some (v, w) | None => None end
    | _ => None
    end
  | None => None
  end.
(** (to)a *)
Definition ask_convert (n to : string) (a : val) : option val :=
  match type_called n, type_called to with
  | Some t, Some u => match conversion G (ev deep G) u (XO t a) with Some (XO _ v) => Some v | _ => None end
  | _, _ => None
  end.
(** The public constructors of a class, as lists of their parameters' types. *)
Definition public_ctors (n : string) : list (list string) :=
  match assoc n (ge_classes G) with
  | Some c => map (fun k => map (fun p => match p_type p with Ct q _ => String.concat "::" q end) (xk_params k)) (filter xk_public (ctors (xc_parts c)))
  | None => []
  end.
End Asked.
