(** * CppDyn: what the generated table of dynamic types means. A parser and an evaluator for the part of C++ in which
    ISD_DynamicTypes.cpp, ISD_CombinedTypes.h and ISD_CombinedTypes.cpp are written. The files are modelled in GenDyn.v; this file has no
    counterpart in /repo, it stands for the C++ compiler (see DESIGN.md). Tokens are those of CppText.v; numbers are words that begin with a
    digit, and [>=] is two tokens. Text outside the subset is rejected ([None]). *)
From Coq Require Import Strings.String Strings.Ascii Strings.HexString.
From Verif Require Import Base Types CppText CppFun.
Local Open Scope string_scope.
Local Open Scope list_scope.

(** ** Syntax *)
Inductive dop := OMul | OAdd | OMod | OGe | OEq | ONe | OAnd | OOr.
Inductive dexpr :=
| DName (q : list string)
| DNum (n : N) | DBool (b : bool) | DNull
| DStat (c : string) (t : cty) (f : string)                         (* c<t>::f *)
| DCast (const : bool) (t : cty) (ptr : bool) (e : dexpr)
| DDeref (e : dexpr) | DNot (e : dexpr)
| DThis (f : string)                                                (* this->f *)
| DField (e : dexpr) (f : string)                                   (* e.f *)
| DOp (o : dop) (a b : dexpr)
| DIndex (e i : dexpr)
| DMethod (e : dexpr) (f : string) (targs : list (list cty)) (args : list dexpr)   (* e.f<...>(...) *)
| DVirtual (e : dexpr) (f : string) (args : list dexpr)             (* e->f(...) *)
| DCall (f : string) (args : list dexpr)
| DTuple (a b : dexpr)                                              (* std::tuple<void*, bool>(a, b) *)
| DBraces (l : list dexpr)
| DNew (t : cty)
| DAssign (a b : dexpr)
| DInc (e : dexpr).                                                 (* ++e *)
Inductive dstmt :=
| TSkip
| TSeq (a b : dstmt)
| TExpr (e : dexpr)
| TIf (c : dexpr) (a : dstmt)
| TWhile (c : dexpr) (a : dstmt)
| TReturn (e : dexpr)
| TBlock (a : dstmt)
| TDelete (e : dexpr)
| TDecl (const : bool) (t : cty) (p : pass) (x : string) (e : dexpr).

(** A member function of a class: its result, its name, its parameters and its body (none: pure virtual). All are const. *)
Record meth := Me { me_const : bool; me_type : cty; me_pass : pass; me_name : string; me_params : list param; me_body : option dstmt }.
Inductive ddecl :=
| DStruct (n : string) (fields : list (cty * string)) (other : param) (same : dstmt)   (* with its operator== *)
| DAbstract (n : string) (ms : list meth)
| DObject (cls base : string) (ms : list meth) (obj : string)       (* a class and a constant object of it *)
| DTable (base n : string) (size : N) (es : list (option string))   (* an array of pointers to objects *)
| DFun (const : bool) (t : cty) (p : pass) (n : string) (ps : list param) (body : dstmt).

(** ** The parser *)
Local Notation "x <~ p ;; q" := (pbind p (fun x => q)) (at level 100, p at level 99, right associativity).
Definition bad (c : ascii) : P unit := fun l => match l with Bad d :: r => if Ascii.eqb c d then Some (tt, r) else None | _ => None end.
Definition optbad (c : ascii) : P bool :=
  fun l => match l with Bad d :: r => if Ascii.eqb c d then Some (true, r) else Some (false, l) | _ => Some (false, l) end.
(** Take a word if it is there; expect it. *)
Definition optid (w : string) : P bool := fun l => match l with Id s :: r => if streqb s w then Some (true, r) else Some (false, l) | _ => Some (false, l) end.
Definition needid (w : string) : P unit := fun l => match l with Id s :: r => if streqb s w then Some (tt, r) else None | _ => None end.
Definition kwb (k j : kw) : bool := match k, j with KConst, KConst | KPublic, KPublic | KClass, KClass | KVoid, KVoid | KBool, KBool => true | _, _ => false end.
Definition needkw (k : kw) : P unit := fun l => match l with Kw j :: r => if kwb k j then Some (tt, r) else None | _ => None end.

(** Numbers: decimal digits, or 0x and hexadecimal digits. *)
Definition dec_digit (c : ascii) : option N := let n := N_of_ascii c in if ((48 <=? n) && (n <=? 57))%N then Some (n - 48)%N else None.
Fixpoint decimal (a : N) (s : string) : option N :=
  match s with "" => Some a | String c r => match dec_digit c with Some d => decimal (10 * a + d)%N r | None => None end end.
Fixpoint hexadecimal (s : string) : bool := match s with "" => true | String c r => match HexString.ascii_to_digit c with Some _ => hexadecimal r | None => false end end.
Definition number (s : string) : option N :=
  match s with
  | "" => None
  | String a (String b r) =>
    if Ascii.eqb b "x" then
      if Ascii.eqb a "0" && hexadecimal r && negb (streqb r "") then Some (HexString.to_N s) else None
    else decimal 0 s
  | _ => decimal 0 s
  end.
Definition pnumber : P N := fun l => match l with Id s :: r => match number s with Some n => Some (n, r) | None => None end | _ => None end.

(** Types: also void, and the tuple new_type returns. *)
Definition tuple_type : cty := Ct ["std"; "tuple"] [[Ct ["void*"] []]; [Ct ["bool"] []]].
Definition vtype : P cty :=
  fun l =>
  match l with
  | Kw KVoid :: r => Some (Ct ["void"] [], r)
  | Id a :: Sy Colons :: Id b :: Sy Lt :: Kw KVoid :: Sy Star :: Sy Comma :: Kw KBool :: Sy Gt :: r =>
    if streqb a "std" && streqb b "tuple" then Some (tuple_type, r) else None
  | _ => ptype depth l
  end.
(** [const] type [ * ] ) of a cast, after its opening parenthesis: to a pointer, or to a type of numbers. *)
Definition number_type (t : cty) : bool := match t with Ct [n] [] => streqb n "size_t" | _ => false end.
Definition pcast (l : list tok) : option (bool * cty * bool * list tok) :=
  match (c <~ pconst ;; t <~ vtype ;; p <~ opt Star ;; _ <~ need RPar ;; pret (c, t, p)) l with
  | Some ((c, t, p), r) => if p || number_type t then Some (c, t, p, r) else None
  | None => None
  end.

Fixpoint dpexpr (n : nat) : P dexpr :=
  match n with
  | 0%nat => fun _ => None
  | S m => a <~ dpor m ;; b <~ opt Eq ;; if b : bool then (r <~ dpexpr m ;; pret (DAssign a r)) else pret a
  end
with dpor (n : nat) : P dexpr :=
  match n with
  | 0%nat => fun _ => None
  | S m => a <~ dpand m ;; b <~ opt BarBar ;; if b : bool then (r <~ dpor m ;; pret (DOp OOr a r)) else pret a
  end
with dpand (n : nat) : P dexpr :=
  match n with
  | 0%nat => fun _ => None
  | S m => a <~ dpequ m ;; b <~ opt AmpAmp ;; if b : bool then (r <~ dpand m ;; pret (DOp OAnd a r)) else pret a
  end
with dpequ (n : nat) : P dexpr :=
  match n with
  | 0%nat => fun _ => None
  | S m =>
    a <~ dprel m ;; b <~ opt EqEq ;;
    if b : bool then (r <~ dprel m ;; pret (DOp OEq a r)) else
    c <~ opt BangEq ;; if c : bool then (r <~ dprel m ;; pret (DOp ONe a r)) else pret a
  end
with dprel (n : nat) : P dexpr :=
  match n with
  | 0%nat => fun _ => None
  | S m =>
    a <~ dpadd m ;;
    fun l => match l with Sy Gt :: Sy Eq :: r => (b <~ dpadd m ;; pret (DOp OGe a b)) r | _ => Some (a, l) end
  end
with dpadd (n : nat) : P dexpr := match n with 0%nat => fun _ => None | S m => a <~ dpmul m ;; dpadds m a end
with dpadds (n : nat) (a : dexpr) : P dexpr :=
  match n with
  | 0%nat => fun _ => None
  | S m => b <~ optbad "+" ;; if b : bool then (x <~ dpmul m ;; dpadds m (DOp OAdd a x)) else pret a
  end
with dpmul (n : nat) : P dexpr := match n with 0%nat => fun _ => None | S m => a <~ dpun m ;; dpmuls m a end
with dpmuls (n : nat) (a : dexpr) : P dexpr :=
  match n with
  | 0%nat => fun _ => None
  | S m =>
    b <~ opt Star ;; if b : bool then (x <~ dpun m ;; dpmuls m (DOp OMul a x)) else
    c <~ optbad "%" ;; if c : bool then (x <~ dpun m ;; dpmuls m (DOp OMod a x)) else pret a
  end
with dpun (n : nat) : P dexpr :=
  match n with
  | 0%nat => fun _ => None
  | S m => fun l =>
    match l with
    | Sy Bang :: r => (e <~ dpun m ;; pret (DNot e)) r
    | Sy Star :: r => (e <~ dpun m ;; pret (DDeref e)) r
    | Bad a :: Bad b :: r => if Ascii.eqb a "+" && Ascii.eqb b "+" then (e <~ dpun m ;; pret (DInc e)) r else None
    | Sy LPar :: r =>
      match pcast r with
      | Some (c, t, p, r2) => (e <~ dpun m ;; pret (DCast c t p e)) r2
      | None => (e <~ dpprim m ;; dppost m e) l
      end
    | _ => (e <~ dpprim m ;; dppost m e) l
    end
  end
with dppost (n : nat) (e : dexpr) : P dexpr :=
  match n with
  | 0%nat => fun _ => None
  | S m => fun l =>
    match l with
    | Sy Dot :: r =>
      (f <~ ident ;; a <~ ptargs m ;; b <~ opt LPar ;;
       if b : bool then (x <~ dpargs m RPar ;; dppost m (DMethod e f a x))
       else match a with [] => dppost m (DField e f) | _ => fun _ => None end) r
    | Sy Arrow :: r => (f <~ ident ;; _ <~ need LPar ;; x <~ dpargs m RPar ;; dppost m (DVirtual e f x)) r
    | Bad c :: r => if Ascii.eqb c lbracket then (i <~ dpexpr m ;; _ <~ bad rbracket ;; dppost m (DIndex e i)) r else Some (e, l)
    | _ => Some (e, l)
    end
  end
with dpargs (n : nat) (close : sym) : P (list dexpr) :=
  match n with
  | 0%nat => fun _ => None
  | S m => b <~ opt close ;; if b : bool then pret [] else dpactuals m close
  end
with dpactuals (n : nat) (close : sym) : P (list dexpr) :=
  match n with
  | 0%nat => fun _ => None
  | S m =>
    a <~ dpexpr m ;; b <~ opt Comma ;;
    if b : bool then (r <~ dpactuals m close ;; pret (a :: r)) else (_ <~ need close ;; pret [a])
  end
with dpprim (n : nat) : P dexpr :=
  match n with
  | 0%nat => fun _ => None
  | S m => fun l =>
    match l with
    | Sy LPar :: r => (e <~ dpexpr m ;; _ <~ need RPar ;; pret e) r
    | Sy LBrace :: r => (x <~ dpargs m RBrace ;; pret (DBraces x)) r
    | Kw KTrue :: r => Some (DBool true, r)
    | Kw KFalse :: r => Some (DBool false, r)
    | Kw KNull :: r => Some (DNull, r)
    | Kw KThis :: Sy Arrow :: Id f :: r => Some (DThis f, r)
    | Id a :: Sy Colons :: Id b :: Sy Lt :: Kw KVoid :: Sy Star :: Sy Comma :: Kw KBool :: Sy Gt :: Sy LPar :: r =>
      if streqb a "std" && streqb b "tuple" then
        (x <~ dpargs m RPar ;; match x with [u; v] => pret (DTuple u v) | _ => fun _ => None end) r
      else None
    | Id c :: Sy Lt :: r => (t <~ ptype m ;; _ <~ need Gt ;; _ <~ need Colons ;; f <~ ident ;; pret (DStat c t f)) r
    | Id f :: Sy LPar :: r => (x <~ dpargs m RPar ;; pret (DCall f x)) r
    | Id w :: r =>
      if streqb w "new" then (t <~ ptype m ;; _ <~ need LPar ;; _ <~ need RPar ;; pret (DNew t)) r else
      match number w with Some v => Some (DNum v, r) | None => (q <~ qname n ;; pret (DName q)) l end
    | _ => None
    end
  end.

(** Statements up to a closing brace, which is taken as well. *)
Fixpoint dpblock (p : P dstmt) (k : nat) : P dstmt :=
  fun l =>
  match l with
  | Sy RBrace :: r => Some (TSkip, r)
  | _ => match k with 0%nat => None | S j => (a <~ p ;; b <~ dpblock p j ;; pret (TSeq a b)) l end
  end.
Definition dpdecl : P dstmt :=
  c <~ pconst ;; t <~ vtype ;; p <~ ppass ;; x <~ ident ;; _ <~ need Eq ;; e <~ dpexpr depth ;; _ <~ need Semi ;; pret (TDecl c t p x e).
Fixpoint to_semi (l : list tok) : option (list tok) := match l with [] => None | Sy Semi :: r => Some r | _ :: r => to_semi r end.
(** Statements. What is sent to the log is not kept. *)
Fixpoint dpstmt (n : nat) : P dstmt :=
  match n with
  | 0%nat => fun _ => None
  | S m => fun l =>
    let other := match dpdecl l with Some x => Some x | None => (e <~ dpexpr depth ;; _ <~ need Semi ;; pret (TExpr e)) l end in
    match l with
    | Kw KIf :: r => (_ <~ need LPar ;; c <~ dpexpr depth ;; _ <~ need RPar ;; a <~ dpstmt m ;; pret (TIf c a)) r
    | Kw KReturn :: r => (e <~ dpexpr depth ;; _ <~ need Semi ;; pret (TReturn e)) r
    | Sy LBrace :: r => (s <~ dpblock (dpstmt m) (List.length r) ;; pret (TBlock s)) r
    | Id w :: r =>
      if streqb w "while" then (_ <~ need LPar ;; c <~ dpexpr depth ;; _ <~ need RPar ;; a <~ dpstmt m ;; pret (TWhile c a)) r
      else if streqb w "delete" then (e <~ dpexpr depth ;; _ <~ need Semi ;; pret (TDelete e)) r
      else if streqb w "ISDErrorLog" then match to_semi r with Some r2 => Some (TSkip, r2) | None => None end
      else other
    | _ => other
    end
  end.
Definition dpbody : P dstmt := fun l => match l with Sy LBrace :: r => dpblock (dpstmt depth) (List.length r) r | _ => None end.

(** Parameters. *)
Definition dpparam : P param := c <~ pconst ;; t <~ vtype ;; p <~ ppass ;; x <~ ident ;; pret (Par c t p x).
Fixpoint dpparams (n : nat) : P (list param) :=
  match n with
  | 0%nat => fun _ => None
  | S m => a <~ dpparam ;; b <~ opt Comma ;; if b : bool then (r <~ dpparams m ;; pret (a :: r)) else (_ <~ need RPar ;; pret [a])
  end.
Definition dpformals : P (list param) := _ <~ need LPar ;; b <~ opt RPar ;; if b : bool then pret [] else dpparams depth.
(** Things up to a closing brace, which is taken as well; [k] bounds their number. *)
Fixpoint pmany {A} (p : P A) (k : nat) : P (list A) :=
  fun l =>
  match l with
  | Sy RBrace :: r => Some ([], r)
  | _ => match k with 0%nat => None | S j => (a <~ p ;; b <~ pmany p j ;; pret (a :: b)) l end
  end.
(** virtual [const] type [ * ] name ( parameters ) const, then = 0; or a body *)
Definition pmeth : P meth :=
  _ <~ needid "virtual" ;; c <~ pconst ;; t <~ vtype ;; p <~ ppass ;; n <~ ident ;; ps <~ dpformals ;; _ <~ needkw KConst ;;
  b <~ opt Eq ;;
  if b : bool then (z <~ pnumber ;; _ <~ need Semi ;; if N.eqb z 0 then pret (Me c t p n ps None) else fun _ => None)
  else (s <~ dpbody ;; pret (Me c t p n ps (Some s))).
Definition pmeths : P (list meth) := _ <~ need LBrace ;; _ <~ needkw KPublic ;; _ <~ need Colon ;; pmany pmeth depth.
(** The fields of a structure, each initialised with {}, and its operator==. *)
Definition pfield : P (cty * string) :=
  t <~ ptype depth ;; x <~ ident ;; _ <~ need Eq ;; _ <~ need LBrace ;; _ <~ need RBrace ;; _ <~ need Semi ;; pret (t, x).
Fixpoint pfields (n : nat) : P (list (cty * string) * (param * dstmt)) :=
  match n with
  | 0%nat => fun _ => None
  | S m => fun l =>
    match l with
    | Kw KBool :: Kw KOperator :: Sy EqEq :: r =>
      (ps <~ dpformals ;; _ <~ needkw KConst ;; s <~ dpbody ;; _ <~ need RBrace ;;
       match ps with [p] => pret ([], (p, s)) | _ => fun _ => None end) r
    | _ => (f <~ pfield ;; x <~ pfields m ;; pret (f :: fst x, snd x)) l
    end
  end.
(** The initialisers of the table. *)
Fixpoint pslots (l : list tok) : option (list (option string) * list tok) :=
  match l with
  | Sy RBrace :: r => Some ([], r)
  | Kw KNull :: Sy Comma :: r => match pslots r with Some (es, r2) => Some (None :: es, r2) | None => None end
  | Sy Amp :: Id s :: Sy Comma :: r => match pslots r with Some (es, r2) => Some (Some s :: es, r2) | None => None end
  | _ => None
  end.
Definition pfunction : P ddecl :=
  c <~ pconst ;; t <~ vtype ;; p <~ ppass ;; n <~ ident ;; ps <~ dpformals ;; s <~ dpbody ;; pret (DFun c t p n ps s).
(** One declaration of the file. *)
Definition pditem : P ddecl :=
  fun l =>
  match l with
  | Id w :: Id n :: Sy LBrace :: r =>
    if streqb w "struct" then (x <~ pfields depth ;; _ <~ need Semi ;; pret (DStruct n (fst x) (fst (snd x)) (snd (snd x)))) r else None
  | Kw KClass :: Id n :: r => (ms <~ pmeths ;; _ <~ need Semi ;; pret (DAbstract n ms)) r
  | Kw KStatic :: Kw KConst :: Kw KClass :: Id n :: Sy Colon :: Kw KPublic :: Id b :: r =>
    (ms <~ pmeths ;; o <~ ident ;; _ <~ need Semi ;; pret (DObject n b ms o)) r
  | Kw KStatic :: Kw KConst :: Id b :: Sy Star :: Id t :: Bad x :: r =>
    if Ascii.eqb x lbracket then
      (n <~ pnumber ;; _ <~ bad rbracket ;; _ <~ need Eq ;; _ <~ need LBrace ;; es <~ pslots ;; _ <~ need Semi ;; pret (DTable b t n es)) r
    else None
  | Kw KStatic :: r => pfunction r
  | _ => pfunction l
  end.
(** The file: its declarations are in namespace ISD::dynamic_types. *)
Definition dyn_file (ts : list tok) : option (list ddecl) :=
  match ts with
  | Kw KNamespace :: Id a :: Sy LBrace :: Kw KNamespace :: Id b :: Sy LBrace :: r =>
    if streqb a "ISD" && streqb b "dynamic_types" then
      match pmany pditem (List.length r) r with Some (ds, [Sy Semi; Sy RBrace; Sy Semi]) => Some ds | _ => None end
    else None
  | _ => None
  end.

(** An enumeration: enum class name { name = number, ... }; *)
Fixpoint penumerators (l : list tok) : option (list (string * N) * list tok) :=
  match l with
  | Sy RBrace :: r => Some ([], r)
  | Id x :: Sy Eq :: Id v :: Sy Comma :: r =>
    match number v, penumerators r with Some n, Some (es, r2) => Some ((x, n) :: es, r2) | _, _ => None end
  | _ => None
  end.
Definition enumeration : Type := string * list (string * N).
Definition enum_of (ts : list tok) : option enumeration :=
  match ts with
  | Id e :: Kw KClass :: Id n :: Sy LBrace :: r =>
    if streqb e "enum" then match penumerators r with Some (es, [Sy Semi]) => Some (n, es) | _ => None end else None
  | _ => None
  end.

(** Specialisations of a structure, with static constants that are enumerators (type, enumeration::enumerator), and aliases. *)
Record info := Info { if_name : string; if_type : cty; if_consts : list (string * (cty * list string)) }.
Fixpoint pconsts (n : nat) : P (list (string * (cty * list string))) :=
  match n with
  | 0%nat => fun _ => None
  | S m => fun l =>
    match l with
    | Sy RBrace :: r => Some ([], r)
    | Kw KUsing :: r => (_ <~ ident ;; _ <~ need Eq ;; _ <~ ptype depth ;; _ <~ need Semi ;; pconsts m) r
    | Kw KStatic :: r =>
      (_ <~ needid "constexpr" ;; t <~ ptype depth ;; x <~ ident ;; _ <~ need Eq ;; q <~ qname depth ;; _ <~ need Semi ;;
       u <~ pconsts m ;; pret ((x, (t, q)) :: u)) r
    | _ => None
    end
  end.
Definition pinfo : P info :=
  _ <~ need Lt ;; _ <~ need Gt ;; _ <~ needid "struct" ;; n <~ ident ;; _ <~ need Lt ;; t <~ ptype depth ;; _ <~ need Gt ;; _ <~ need LBrace ;;
  c <~ pconsts depth ;; pret (Info n t c).
(** Specialisations of a function without result, template <> void name<type>( parameters ) body. *)
Record special := Special { so_name : string; so_type : cty; so_params : list param; so_body : dstmt }.
Definition pspecial : P special :=
  _ <~ need Lt ;; _ <~ need Gt ;; _ <~ needkw KVoid ;; n <~ ident ;; _ <~ need Lt ;; t <~ ptype depth ;; _ <~ need Gt ;; ps <~ dpformals ;;
  s <~ dpbody ;; pret (Special n t ps s).
(** All specialisations of a file, at depth 1 ([segs] is in CppFun.v). *)
Fixpoint all_of {A} (p : P A) (l : list (nat * list tok)) : option (list A) :=
  match l with
  | [] => Some []
  | (a, ts) :: r =>
    if Nat.eqb a 1 then match p ts, all_of p r with Some (x, []), Some u => Some (x :: u) | _, _ => None end else None
  end.
Definition specials_of {A} (p : P A) (lines : list string) : option (list A) :=
  match segs 0 None (tokens lines) with Some l => all_of p l | None => None end.

(** The program: enumerations, constants, specialisations, declarations. *)
Record program := Prog { pg_enums : list enumeration; pg_infos : list info; pg_specials : list special; pg_decls : list ddecl }.
Definition parse_program (enums : list (list string)) (header source dynamic : list string) : option program :=
  let fix all (l : list (list string)) : option (list enumeration) :=
    match l with [] => Some [] | x :: r => match enum_of (tokens x), all r with Some e, Some u => Some (e :: u) | _, _ => None end end in
  match all enums, specials_of pinfo header, specials_of pspecial source, dyn_file (tokens dynamic) with
  | Some es, Some is, Some ss, Some ds => Some (Prog es is ss ds)
  | _, _, _, _ => None
  end.

(** ** Checks *)
Definition pass_eqb (a b : pass) : bool :=
  match a, b with ByValue, ByValue | ByRef, ByRef | ByMove, ByMove | ByPtr, ByPtr => true | _, _ => false end.
Definition boolb (a b : bool) : bool := Bool.eqb a b.
Fixpoint params_eqb (p q : list param) : bool :=
  match p, q with
  | [], [] => true
  | Par c t u _ :: p', Par d s v _ :: q' => boolb c d && cty_eqb t s && pass_eqb u v && params_eqb p' q'
  | _, _ => false
  end.
(** [m] overrides the pure virtual function [a]. *)
Definition overrides (a m : meth) : bool :=
  streqb (me_name a) (me_name m) && boolb (me_const a) (me_const m) && cty_eqb (me_type a) (me_type m) && pass_eqb (me_pass a) (me_pass m)
  && params_eqb (me_params a) (me_params m) && match me_body m with Some _ => true | None => false end.
Fixpoint member (n : string) (l : list string) : bool := match l with [] => false | x :: r => streqb n x || member n r end.
Fixpoint alldiff (l : list string) : bool := match l with [] => true | x :: r => negb (member x r) && alldiff r end.
Fixpoint alldiff_types (l : list cty) : bool := match l with [] => true | x :: r => negb (existsb (cty_eqb x) r) && alldiff_types r end.
Definition names_of (d : ddecl) : list string :=
  match d with
  | DStruct n _ _ _ => [n] | DAbstract n _ => [n] | DObject c _ _ o => [c; o] | DTable _ n _ _ => [n] | DFun _ _ _ n _ _ => [n]
  end.
(** Lookups in the declarations made before, the last one first. *)
Fixpoint find_abstract (n : string) (ds : list ddecl) : option (list meth) :=
  match ds with [] => None | DAbstract m ms :: r => if streqb n m then Some ms else find_abstract n r | _ :: r => find_abstract n r end.
Fixpoint find_object (o : string) (ds : list ddecl) : option (string * list meth) :=
  match ds with [] => None | DObject _ b ms p :: r => if streqb o p then Some (b, ms) else find_object o r | _ :: r => find_object o r end.
Fixpoint find_table (n : string) (ds : list ddecl) : option (string * list (option string)) :=
  match ds with [] => None | DTable b m _ es :: r => if streqb n m then Some (b, es) else find_table n r | _ :: r => find_table n r end.
Fixpoint find_struct (n : string) (ds : list ddecl) : option (list (cty * string) * (param * dstmt)) :=
  match ds with [] => None | DStruct m fs p s :: r => if streqb n m then Some (fs, (p, s)) else find_struct n r | _ :: r => find_struct n r end.
(** A declaration after the declarations [ds]: a class with an object implements all functions of its base; an array has at most as many
    initialisers as elements, and they are objects of classes with that base. *)
Definition decl_ok (ds : list ddecl) (d : ddecl) : bool :=
  match d with
  | DObject _ b ms _ =>
    match find_abstract b ds with Some abs => forallb (fun a => existsb (overrides a) ms) abs && alldiff (map me_name ms) | None => false end
  | DTable b _ n es =>
    N.leb (N.of_nat (length es)) n && match find_abstract b ds with Some _ => true | None => false end
    && forallb (fun e => match e with None => true | Some o => match find_object o ds with Some (c, _) => streqb b c | None => false end end) es
  | _ => true
  end.
Fixpoint decls_ok (seen : list ddecl) (ds : list ddecl) : bool :=
  match ds with [] => true | d :: r => decl_ok seen d && decls_ok (d :: seen) r end.
(** No name is declared twice; the enumerators are values of int. *)
Definition enum_ok (e : enumeration) : bool := alldiff (map fst (snd e)) && forallb (fun x => N.ltb (snd x) (2 ^ 31)) (snd e).
Definition compiles (p : program) : bool :=
  alldiff (map fst (pg_enums p)) && forallb enum_ok (pg_enums p)
  && alldiff_types (map if_type (pg_infos p)) && alldiff_types (map so_type (pg_specials p))
  && alldiff (flat_map names_of (pg_decls p)) && decls_ok [] (pg_decls p).

(** ** Data *)
(** What the files are compiled against: the data types, with value-initialised objects, the constant data_type_information<T>::zero and
    operator== (of the type in a container); and EntityWriter::Write<T>, EntityReader::Read<T>, for one key. *)
Record dhost (W R : Type) := DHost {
  g_type : string -> bool;
  g_new : string -> val;
  g_zero : string -> val;
  g_eq : string -> cval -> cval -> bool;
  g_write : string -> cval -> W -> O (bool * W);
  g_read : string -> cval -> R -> O (bool * cval * R) }.
Arguments g_type {W R} d _. Arguments g_new {W R} d _. Arguments g_zero {W R} d _. Arguments g_eq {W R} d _ _ _.
Arguments g_write {W R} d _ _ _. Arguments g_read {W R} d _ _ _.

(** The objects in memory: an address is an index, it is used once; None: the object was deleted. The type of an object is a data type
    and the container of its value. *)
Definition heap : Type := list (option (string * cval)).
Inductive dv :=
| UNull
| UPtr (const : bool) (t : option (string * ctype)) (a : nat)       (* to an object; None: void* *)
| ULoc (const : bool) (t : string) (c : ctype) (a : nat)            (* the object itself *)
| UObj (o : string)                                                 (* to a constant object of the file *)
| UEnum (e : string) (n : N)                                        (* the value, converted to size_t *)
| URec (s : string) (fs : list (string * dv))
| UNum (n : N) | UBool (b : bool)
| UKey | ULen | UWriter | UReader
| UZero (t : string)
| UTable (es : list (option string))
| UTuple (p : dv) (b : bool)
| UBraces (l : list dv)
| UVoid.
(** The value-initialised object. *)
Definition fresh (v : val) (c : ctype) : cval :=
  match c with
  | CtNone => CV v | CtOpt => COpt None | CtVec => CVec [] | CtOptVec => COptVec None | CtIdx => CIdx [] [] | CtOptIdx => COptIdx None
  end.
(** vector is std::vector (ISD/ISD_Types.h:43). *)
Definition type_named (t : cty) : option (ctype * string) :=
  match t with
  | Ct [c] [[Ct [n] []]] => if streqb c "vector" then Some (CtVec, n) else container_of t
  | _ => container_of t
  end.
Definition ctype_eqb (a b : ctype) : bool :=
  match a, b with
  | CtNone, CtNone | CtOpt, CtOpt | CtVec, CtVec | CtOptVec, CtOptVec | CtIdx, CtIdx | CtOptIdx, CtOptIdx => true
  | _, _ => false
  end.
Definition objtype_eqb (n : string) (c : ctype) (t : ctype * string) : bool := tyeqb n (snd t) && ctype_eqb c (fst t).
(** The object at an address, used as an object of that type; it has no other type. *)
Definition object_at (h : heap) (a : nat) (t : string) (c : ctype) : res cval :=
  match nth_error h a with
  | Some (Some (u, v)) => if tyeqb t u && ctype_eqb c (cval_ctype v) then Done v else Undef
  | _ => Undef
  end.
Fixpoint set_at (h : heap) (a : nat) (x : option (string * cval)) : heap :=
  match h, a with [], _ => [] | _ :: r, 0%nat => x :: r | y :: r, S b => y :: set_at r b x end.

Record world (W R : Type) := World { wo_heap : heap; wo_writer : W; wo_reader : R }.
Arguments World {W R} _ _ _. Arguments wo_heap {W R} w. Arguments wo_writer {W R} w. Arguments wo_reader {W R} w.
(** Local variables, with their types. *)
Record lvar := LV { lv_const : bool; lv_type : cty; lv_pass : pass; lv_val : dv }.
Definition denv : Type := list (string * lvar).
Fixpoint lookup {A} (x : string) (E : list (string * A)) : option A :=
  match E with [] => None | (y, a) :: r => if streqb x y then Some a else lookup x r end.
Fixpoint set_lvar (x : string) (v : dv) (E : denv) : denv :=
  match E with
  | [] => []
  | (y, a) :: r => if streqb x y then (y, LV (lv_const a) (lv_type a) (lv_pass a) v) :: r else (y, a) :: set_lvar x v r
  end.

Local Notation "x <- m ;; f" := (obind m (fun x => f)) (at level 100, m at level 99, right associativity).
Definition some {A} (x : option A) : O A := match x with Some a => oret a | None => None end.
Definition truth (v : dv) : option bool :=
  match v with UBool b => Some b | UNull => Some false | UPtr _ _ _ | UObj _ => Some true | _ => None end.

Section Run.
Context {W R : Type} (h : dhost W R).
(** What the code around an expression provides: structures, tables, constants c<t>::f, operator== of structures, virtual functions and
    functions. *)
Record around := Around {
  k_struct : string -> option (list (cty * string));
  k_class : string -> bool;
  k_table : string -> option (list (option string));
  k_stat : string -> cty -> string -> option dv;
  k_same : string -> dv -> dv -> world W R -> O bool;
  k_virtual : string -> string -> list dv -> world W R -> O (dv * world W R);
  k_fun : string -> list dv -> world W R -> O (dv * world W R) }.
Context (K : around).

(** Initialisation of the fields of a structure: enumerations, which do not convert. *)
Fixpoint init_fields (fs : list (cty * string)) (l : list dv) : option (list (string * dv)) :=
  match fs, l with
  | [], [] => Some []
  | (Ct [n] [], f) :: fs', UEnum e v :: l' =>
    if streqb n e then match init_fields fs' l' with Some r => Some ((f, UEnum e v) :: r) | None => None end else None
  | _, _ => None
  end.
(** A value as a value of a declared type (parameters, variables, results); None if there is no conversion. *)
Definition convert_to (c : bool) (t : cty) (p : pass) (v : dv) : option dv :=
  match p, v with
  | ByRef, ULoc k n ct a =>
    match type_named t with Some u => if objtype_eqb n ct u && (c || negb k) then Some (ULoc c n ct a) else None | None => None end
  | ByValue, UTuple _ _ => if cty_eqb t tuple_type then Some v else None
  | _, _ =>
    match t with
    | Ct [n] [] =>
      match p, v with
      | ByPtr, (UNull | UBraces []) => Some UNull
      | ByPtr, UPtr k _ a => if streqb n "void" && (c || negb k) then Some (UPtr c None a) else None
      | ByPtr, UObj _ => if k_class K n && c then Some v else None
      | ByPtr, UKey => if streqb n "char" && c then Some v else None
      | ByValue, ULen => if streqb n "u8" then Some v else None
      | ByValue, UBool _ => if streqb n "bool" then Some v else None
      | ByValue, UNum _ => if streqb n "size_t" then Some v else None
      | ByValue, UEnum e _ => if streqb n e then Some v else None
      | ByValue, URec s _ => if streqb n s then Some v else None
      | ByValue, UBraces l =>
        match k_struct K n with
        | Some fs => match init_fields fs l with Some r => Some (URec n r) | None => None end
        | None => None
        end
      | ByRef, URec s _ => if streqb n s && c then Some v else None
      | ByRef, UWriter => if streqb n "EntityWriter" && negb c then Some v else None
      | ByRef, UReader => if streqb n "EntityReader" && negb c then Some v else None
      | _, _ => None
      end
    | _ => None
    end
  end.

Definition dstate : Type := denv * world W R.
Definition with_heap (s : dstate) (hp : heap) : dstate := (fst s, World hp (wo_writer (snd s)) (wo_reader (snd s))).
Definition heap_of (s : dstate) : heap := wo_heap (snd s).
Definition size_op (o : dop) (a b : N) : O dv :=
  match o with
  | OMul => oret (UNum ((a * b) mod 2 ^ 64)) | OAdd => oret (UNum ((a + b) mod 2 ^ 64))
  | OMod => if N.eqb b 0 then Some Undef else oret (UNum (a mod b))
  | OGe => oret (UBool (N.leb b a))
  | _ => None
  end%N.
(** Operators on values. *)
Definition operate (o : dop) (v w : dv) (s : dstate) : O dv :=
  match v, w with
  | UNum a, UNum b => size_op o a b
  | UEnum e a, UEnum f b => match o with OEq => if streqb e f then oret (UBool (N.eqb a b)) else None | _ => None end
  | URec a _, URec b _ => match o with OEq => if streqb a b then x <- k_same K a v w (snd s) ;; oret (UBool x) else None | _ => None end
  | ULoc _ t c a, ULoc _ u d b =>
    match o with
    | OEq =>
      if tyeqb t u && ctype_eqb c d then
        x <- Some (object_at (heap_of s) a t c) ;; y <- Some (object_at (heap_of s) b u d) ;; oret (UBool (g_eq h t x y))
      else None
    | _ => None
    end
  | (UNull | UPtr _ _ _ | UObj _), UNull => match o, truth v with ONe, Some b => oret (UBool b) | OEq, Some b => oret (UBool (negb b)) | _, _ => None end
  | _, _ => None
  end.
(** Member functions of objects. *)
Definition member_call (v : dv) (f : string) (targs : list (list cty)) (args : list dv) (s : dstate) : O (dv * dstate) :=
  match v, targs, args with
  | UWriter, [[t]], [UKey; ULen; ULoc _ n c a] =>
    match type_named t with
    | Some u =>
      if streqb f "Write" && objtype_eqb n c u then
        x <- Some (object_at (heap_of s) a n c) ;; r <- g_write h n x (wo_writer (snd s)) ;;
        oret (UBool (fst r), (fst s, World (heap_of s) (snd r) (wo_reader (snd s))))
      else None
    | None => None
    end
  | UReader, [[t]], [UKey; ULen; ULoc false n c a] =>
    match type_named t with
    | Some u =>
      if streqb f "Read" && objtype_eqb n c u then
        x <- Some (object_at (heap_of s) a n c) ;; r <- g_read h n x (wo_reader (snd s)) ;;
        let '(b, y, rd) := r in oret (UBool b, (fst s, World (set_at (heap_of s) a (Some (n, y))) (wo_writer (snd s)) rd))
      else None
    | None => None
    end
  | ULoc false n c a, [], [] =>
    x <- Some (object_at (heap_of s) a n c) ;;
    match x with
    | CVec _ => if streqb f "clear" then oret (UVoid, with_heap s (set_at (heap_of s) a (Some (n, CVec [])))) else None
    | CIdx _ _ => if streqb f "clear" then oret (UVoid, with_heap s (set_at (heap_of s) a (Some (n, CIdx [] [])))) else None
    | COpt _ => if streqb f "reset" then oret (UVoid, with_heap s (set_at (heap_of s) a (Some (n, COpt None)))) else None
    | COptVec _ => if streqb f "reset" then oret (UVoid, with_heap s (set_at (heap_of s) a (Some (n, COptVec None)))) else None
    | COptIdx _ => if streqb f "reset" then oret (UVoid, with_heap s (set_at (heap_of s) a (Some (n, COptIdx None)))) else None
    | CV _ => None
    end
  | _, _, _ => None
  end.
(** Assignment to an object in memory. *)
Definition assign (v w : dv) (s : dstate) : O dstate :=
  match v, w with
  | ULoc false t CtNone a, UZero u =>
    if tyeqb t u then x <- Some (object_at (heap_of s) a t CtNone) ;; oret (with_heap s (set_at (heap_of s) a (Some (t, CV (g_zero h u))))) else None
  | ULoc false t c a, ULoc _ u d b =>
    if tyeqb t u && ctype_eqb c d then
      x <- Some (object_at (heap_of s) a t c) ;; y <- Some (object_at (heap_of s) b u d) ;; oret (with_heap s (set_at (heap_of s) a (Some (t, y))))
    else None
  | _, _ => None
  end.
(** A cast: of pointers to objects, of enumerations to size_t. *)
Definition cast_to (c : bool) (t : cty) (ptr : bool) (v : dv) : option dv :=
  match ptr, v with
  | true, UNull => Some UNull
  | true, UPtr _ _ a =>
    match type_named t with Some (ct, n) => if g_type h n then Some (UPtr c (Some (n, ct)) a) else None | None => None end
  | false, (UEnum _ n | UNum n) => if number_type t then Some (UNum n) else None
  | _, _ => None
  end.

Fixpoint deval (e : dexpr) (s : dstate) {struct e} : O (dv * dstate) :=
  let devals := fix devals (l : list dexpr) (s : dstate) {struct l} : O (list dv * dstate) :=
    match l with
    | [] => oret ([], s)
    | a :: r => p <- deval a s ;; let '(v, s1) := p in q <- devals r s1 ;; let '(vs, s2) := q in oret (v :: vs, s2)
    end in
  match e with
  | DName [x] =>
    match lookup x (fst s) with
    | Some a => oret (lv_val a, s)
    | None => match k_table K x with Some es => oret (UTable es, s) | None => None end
    end
  | DName _ => None
  | DNum n => oret (UNum n, s)
  | DBool b => oret (UBool b, s)
  | DNull => oret (UNull, s)
  | DStat c t f => match k_stat K c t f with Some v => oret (v, s) | None => None end
  | DCast c t p a => q <- deval a s ;; let '(v, s1) := q in match cast_to c t p v with Some w => oret (w, s1) | None => None end
  | DDeref a =>
    q <- deval a s ;; let '(v, s1) := q in
    match v with
    | UPtr c (Some (t, ct)) a => x <- Some (object_at (heap_of s1) a t ct) ;; oret (ULoc c t ct a, s1)
    | UNull => Some Undef
    | _ => None
    end
  | DNot a => q <- deval a s ;; let '(v, s1) := q in match truth v with Some b => oret (UBool (negb b), s1) | None => None end
  | DThis f =>
    match lookup "this" (fst s) with
    | Some a => match lv_val a with URec _ fs => match lookup f fs with Some v => oret (v, s) | None => None end | _ => None end
    | None => None
    end
  | DField a f =>
    q <- deval a s ;; let '(v, s1) := q in
    match v with URec _ fs => match lookup f fs with Some w => oret (w, s1) | None => None end | _ => None end
  | DOp OAnd a b =>
    q <- deval a s ;; let '(v, s1) := q in
    match truth v with
    | Some true => p <- deval b s1 ;; let '(w, s2) := p in match truth w with Some x => oret (UBool x, s2) | None => None end
    | Some false => oret (UBool false, s1)
    | None => None
    end
  | DOp OOr a b =>
    q <- deval a s ;; let '(v, s1) := q in
    match truth v with
    | Some false => p <- deval b s1 ;; let '(w, s2) := p in match truth w with Some x => oret (UBool x, s2) | None => None end
    | Some true => oret (UBool true, s1)
    | None => None
    end
  | DOp o a b =>
    q <- deval a s ;; let '(v, s1) := q in p <- deval b s1 ;; let '(w, s2) := p in x <- operate o v w s2 ;; oret (x, s2)
  | DIndex a i =>
    q <- deval a s ;; let '(v, s1) := q in p <- deval i s1 ;; let '(w, s2) := p in
    match v, w with
    | UTable es, UNum n =>
      match nth_error es (N.to_nat n) with Some (Some o) => oret (UObj o, s2) | Some None => oret (UNull, s2) | None => Some Undef end
    | _, _ => None
    end
  | DMethod a f ts args => q <- deval a s ;; let '(v, s1) := q in p <- devals args s1 ;; let '(vs, s2) := p in member_call v f ts vs s2
  | DVirtual a f args =>
    q <- deval a s ;; let '(v, s1) := q in p <- devals args s1 ;; let '(vs, s2) := p in
    match v with
    | UObj o => r <- k_virtual K o f vs (snd s2) ;; oret (fst r, (fst s2, snd r))
    | UNull => Some Undef
    | _ => None
    end
  | DCall f args => p <- devals args s ;; let '(vs, s1) := p in r <- k_fun K f vs (snd s1) ;; oret (fst r, (fst s1, snd r))
  | DTuple a b =>
    q <- deval a s ;; let '(v, s1) := q in p <- deval b s1 ;; let '(w, s2) := p in
    match convert_to false (Ct ["void"] []) ByPtr v, w with Some x, UBool y => oret (UTuple x y, s2) | _, _ => None end
  | DBraces l => p <- devals l s ;; let '(vs, s1) := p in oret (UBraces vs, s1)
  | DNew t =>
    match type_named t with
    | Some (c, n) =>
      if g_type h n then
        oret (UPtr false (Some (n, c)) (length (heap_of s)), with_heap s (heap_of s ++ [Some (n, fresh (g_new h n) c)]))
      else None
    | None => None
    end
  | DAssign (DName [x]) b =>
    match lookup x (fst s) with
    | Some a =>
      q <- deval b s ;; let '(w, s1) := q in
      match lv_val a with
      | ULoc _ _ _ _ => s2 <- assign (lv_val a) w s1 ;; oret (UVoid, s2)
      | _ =>
        match (if lv_const a && negb (pass_eqb (lv_pass a) ByPtr) then None else convert_to (lv_const a) (lv_type a) (lv_pass a) w) with
        | Some v => oret (UVoid, (set_lvar x v (fst s1), snd s1))
        | None => None
        end
      end
    | None => None
    end
  | DAssign a b =>
    q <- deval a s ;; let '(v, s1) := q in p <- deval b s1 ;; let '(w, s2) := p in s3 <- assign v w s2 ;; oret (UVoid, s3)
  | DInc (DName [x]) =>
    match lookup x (fst s) with
    | Some (LV false _ ByValue (UNum n)) => let v := UNum ((n + 1) mod 2 ^ 64)%N in oret (v, (set_lvar x v (fst s), snd s))
    | _ => None
    end
  | DInc _ => None
  end.

(** Statements: Some v after return v. A loop makes at most [fuel] rounds, None after that. *)
Definition dleave (E : denv) (s : dstate) : dstate := (skipn (length (fst s) - length E) (fst s), snd s).
Fixpoint rounds (cond : dstate -> O (dv * dstate)) (body : dstate -> O (option dv * dstate)) (fuel : nat) (s : dstate) : O (option dv * dstate) :=
  q <- cond s ;; let '(v, s1) := q in
  match truth v with
  | Some true =>
    match fuel with
    | 0%nat => None
    | S f => r <- body s1 ;; match r with (None, s2) => rounds cond body f s2 | (Some v, s2) => oret (Some v, s2) end
    end
  | Some false => oret (None, s1)
  | None => None
  end.
Fixpoint dexec (fuel : nat) (c : dstmt) (s : dstate) : O (option dv * dstate) :=
  match c with
  | TSkip => oret (None, s)
  | TSeq a b => p <- dexec fuel a s ;; match p with (None, s1) => dexec fuel b s1 | r => oret r end
  | TExpr e => p <- deval e s ;; oret (None, snd p)
  | TIf e a =>
    p <- deval e s ;; let '(v, s1) := p in
    match truth v with
    | Some true => q <- dexec fuel a s1 ;; oret (fst q, dleave (fst s) (snd q))
    | Some false => oret (None, s1)
    | None => None
    end
  | TWhile e a => rounds (deval e) (fun s1 => q <- dexec fuel a s1 ;; oret (fst q, dleave (fst s1) (snd q))) fuel s
  | TReturn e => p <- deval e s ;; oret (Some (fst p), snd p)
  | TBlock a => p <- dexec fuel a s ;; oret (fst p, dleave (fst s) (snd p))
  | TDelete e =>
    p <- deval e s ;; let '(v, s1) := p in
    match v with
    | UPtr _ (Some (t, ct)) a => x <- Some (object_at (heap_of s1) a t ct) ;; oret (None, with_heap s1 (set_at (heap_of s1) a None))
    | UNull => oret (None, s1)
    | _ => None
    end
  | TDecl c t p x e =>
    q <- deval e s ;; let '(v, s1) := q in
    match convert_to c t p v, lookup x (fst s1) with
    | Some w, None => oret (None, ((x, LV c t p w) :: fst s1, snd s1))
    | _, _ => None
    end
  end.

(** A call: the parameters are initialised, the body is executed, the result is converted. The end of a function with a result is
    undefined. *)
Fixpoint bind_params (ps : list param) (args : list dv) : option denv :=
  match ps, args with
  | [], [] => Some []
  | Par c t p x :: ps', v :: args' =>
    match convert_to c t p v, bind_params ps' args' with
    | Some w, Some E => if existsb (fun y => streqb x (fst y)) E then None else Some ((x, LV c t p w) :: E)
    | _, _ => None
    end
  | _, _ => None
  end.
Definition is_void (t : cty) (p : pass) : bool := match t, p with Ct [n] [], ByValue => streqb n "void" | _, _ => false end.
Definition invoke (fuel : nat) (c : bool) (t : cty) (p : pass) (ps : list param) (body : dstmt) (this : denv) (args : list dv) (w : world W R)
  : O (dv * world W R) :=
  match bind_params ps args with
  | Some E =>
    r <- dexec fuel body (E ++ this, w) ;;
    match fst r with
    | None => if is_void t p then oret (UVoid, snd (snd r)) else Some Undef
    | Some v => if is_void t p then None else match convert_to c t p v with Some x => oret (x, snd (snd r)) | None => None end
    end
  | None => None
  end.
End Run.
Arguments around : clear implicits.

(** ** Programs *)
Section Program.
Context {W R : Type} (h : dhost W R) (pg : program).
(** c<t>::f *)
Fixpoint find_info (c : string) (t : cty) (l : list info) : option info :=
  match l with [] => None | i :: r => if streqb c (if_name i) && cty_eqb (if_type i) t then Some i else find_info c t r end.
Definition enumerator (t : cty) (q : list string) : option dv :=
  match t, q with
  | Ct [n] [], [e; x] =>
    if streqb n e then match lookup e (pg_enums pg) with Some es => match lookup x es with Some v => Some (UEnum e v) | None => None end | None => None end
    else None
  | _, _ => None
  end.
Definition static_of (c : string) (t : cty) (f : string) : option dv :=
  if streqb c "data_type_information" then
    match type_named t with Some (CtNone, n) => if streqb f "zero" && g_type h n then Some (UZero n) else None | _ => None end
  else
    match find_info c t (pg_infos pg) with
    | Some i => match lookup f (if_consts i) with Some (u, q) => enumerator u q | None => None end
    | None => None
    end.
(** The code in front of everything: nothing but the constants. *)
Definition bare : around W R :=
  Around (fun _ => None) (fun _ => false) (fun _ => None) static_of (fun _ _ _ _ => None) (fun _ _ _ _ => None) (fun _ _ _ => None).
(** A specialisation, found by the type of the object. The primary template is declared, the specialisation is in another file: they
    are linked by name (simplification: the standard wants it declared first). *)
Fixpoint find_special (f : string) (n : string) (c : ctype) (l : list special) : option special :=
  match l with
  | [] => None
  | s :: r =>
    if streqb f (so_name s) && match type_named (so_type s) with Some u => objtype_eqb n c u | None => false end then Some s
    else find_special f n c r
  end.
Definition run_special (fuel : nat) (f : string) (args : list dv) (w : world W R) : O (dv * world W R) :=
  match args with
  | [ULoc k n c a] =>
    match find_special f n c (pg_specials pg) with
    | Some s => invoke h bare fuel false (Ct ["void"] []) ByValue (so_params s) (so_body s) [] args w
    | None => None
    end
  | _ => None
  end.
(** operator== of a structure declared in [ds], applied to x and y: this is x. *)
Definition boolean : cty := Ct ["bool"] [].
Definition struct_same (fuel : nat) (ds : list ddecl) (n : string) (x y : dv) (w : world W R) : O bool :=
  match find_struct n ds with
  | Some (_, (p, s)) =>
    r <- invoke h bare fuel false boolean ByValue [p] s [("this", LV true (Ct [n] []) ByPtr x)] [y] w ;;
    match fst r with UBool b => oret b | _ => None end
  | None => None
  end.
(** What the declarations [ds] in front of a member function or function provide; functions: [call]. *)
Definition scope (fuel : nat) (ds : list ddecl) (virtual : string -> string -> list dv -> world W R -> O (dv * world W R))
  (call : string -> list dv -> world W R -> O (dv * world W R)) : around W R :=
  Around (fun n => option_map fst (find_struct n ds)) (fun n => match find_abstract n ds with Some _ => true | None => false end)
    (fun n => option_map snd (find_table n ds)) static_of (struct_same fuel ds) virtual call.
(** A virtual function of an object. *)
Fixpoint find_meth (f : string) (l : list meth) : option meth := match l with [] => None | m :: r => if streqb f (me_name m) then Some m else find_meth f r end.
Definition run_virtual (fuel : nat) (ds : list ddecl) (o f : string) (args : list dv) (w : world W R) : O (dv * world W R) :=
  match find_object o ds with
  | Some (_, ms) =>
    match find_meth f ms with
    | Some (Me c t p _ ps (Some s)) => invoke h (scope fuel ds (fun _ _ _ _ => None) (run_special fuel)) fuel c t p ps s [] args w
    | _ => None
    end
  | None => None
  end.
(** A function of the file, which calls only what is declared in front of it. [ds]: the declarations, the last one first. *)
Fixpoint run_function (fuel : nat) (ds : list ddecl) (f : string) (args : list dv) (w : world W R) : O (dv * world W R) :=
  match ds with
  | [] => None
  | DFun c t p n ps s :: r =>
    if streqb f n then invoke h (scope fuel r (run_virtual fuel r) (run_function fuel r)) fuel c t p ps s [] args w
    else run_function fuel r f args w
  | _ :: r => run_function fuel r f args w
  end.
Definition run_program (fuel : nat) (f : string) (args : list dv) (w : world W R) : O (dv * world W R) :=
  if compiles pg then run_function fuel (rev (pg_decls pg)) f args w else None.
End Program.
