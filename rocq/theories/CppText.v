(** * CppText: reading C++ text. A lexer and a recursive-descent parser for the part of C++ the generated entity files
    (CodeGenerator/Generators/EntityGenerator.py) are written in. The files themselves are modelled in GenText.v; this
    file has no counterpart in /repo, it stands for the first phases of the C++ compiler (see DESIGN.md). Text outside
    the subset is rejected ([None]). *)
From Coq Require Import Strings.String Strings.Ascii.
From Verif Require Import Base.
Local Open Scope string_scope.
Local Open Scope list_scope.

(** ** Tokens *)
Inductive kw := KIf | KElse | KReturn | KClass | KPublic | KProtected | KFriend | KDefault | KConst | KBool | KVoid
  | KInline | KStatic | KUsing | KNamespace | KOperator | KTrue | KFalse | KNull | KThis.
Inductive sym := LPar | RPar | LBrace | RBrace | Lt | Gt | Semi | Colon | Comma | Dot | Eq | Bang | Amp | Bar | Star | Tilde
  | Quest | Hash | Slash | Colons | Arrow | EqEq | BangEq | BarBar | AmpAmp.
Inductive tok := Id (s : string) | Kw (k : kw) | Str (s : string) | Sy (y : sym) | Bad (c : ascii).

Definition keywords : list (string * kw) :=
  [ ("if", KIf); ("else", KElse); ("return", KReturn); ("class", KClass); ("public", KPublic); ("protected", KProtected);
    ("friend", KFriend); ("default", KDefault); ("const", KConst); ("bool", KBool); ("void", KVoid); ("inline", KInline);
    ("static", KStatic); ("using", KUsing); ("namespace", KNamespace); ("operator", KOperator); ("true", KTrue);
    ("false", KFalse); ("nullptr", KNull); ("this", KThis) ].
Fixpoint keyword (s : string) (l : list (string * kw)) : tok :=
  match l with [] => Id s | (n, k) :: r => if String.eqb s n then Kw k else keyword s r end.
Definition word (s : string) : tok := keyword s keywords.

(** Letters, digits and the underscore. *)
Definition id_char (c : ascii) : bool :=
  let n := N_of_ascii c in
  (((48 <=? n) && (n <=? 57)) || ((65 <=? n) && (n <=? 90)) || ((97 <=? n) && (n <=? 122)) || (n =? 95))%N.
Definition space (c : ascii) : bool := let n := N_of_ascii c in ((n =? 32) || (n =? 9))%N.

Definition sym1 (c : ascii) : tok :=
  match c with
  | "("%char => Sy LPar | ")"%char => Sy RPar | "{"%char => Sy LBrace | "}"%char => Sy RBrace | "<"%char => Sy Lt
  | ">"%char => Sy Gt | ";"%char => Sy Semi | ":"%char => Sy Colon | ","%char => Sy Comma | "."%char => Sy Dot
  | "="%char => Sy Eq | "!"%char => Sy Bang | "&"%char => Sy Amp | "|"%char => Sy Bar | "*"%char => Sy Star
  | "~"%char => Sy Tilde | "?"%char => Sy Quest | "#"%char => Sy Hash | "/"%char => Sy Slash
  | _ => Bad c
  end.
Definition sym2 (c d : ascii) : option sym :=
  match c, d with
  | ":"%char, ":"%char => Some Colons
  | "-"%char, ">"%char => Some Arrow
  | "="%char, "="%char => Some EqEq
  | "!"%char, "="%char => Some BangEq
  | "|"%char, "|"%char => Some BarBar
  | "&"%char, "&"%char => Some AmpAmp
  | _, _ => None
  end.
Definition comment (c d : ascii) : bool := match c, d with "/"%char, "/"%char => true | _, _ => false end.

(** The lexer of one line: the word read so far, the string literal read so far. A comment ends the line. *)
Inductive lmode := MNone | MId (a : string) | MStr (a : string).
Definition flush (m : lmode) : list tok :=
  match m with MNone => [] | MId a => [word a] | MStr a => [Bad """"] end.
Definition snoc (a : string) (c : ascii) : string := append a (String c "").
Fixpoint lx (m : lmode) (s : string) : list tok :=
  match s with
  | EmptyString => flush m
  | String c r =>
    match m with
    | MStr a => if Ascii.eqb c """" then Str a :: lx MNone r else lx (MStr (snoc a c)) r
    | MId a =>
      if id_char c then lx (MId (snoc a c)) r else
      word a ::
      (if space c then lx MNone r else if Ascii.eqb c """" then lx (MStr "") r else
       match r with
       | String d r2 =>
         if comment c d then [] else match sym2 c d with Some y => Sy y :: lx MNone r2 | None => sym1 c :: lx MNone r end
       | EmptyString => [sym1 c]
       end)
    | MNone =>
      if id_char c then lx (MId (String c "")) r else
      (if space c then lx MNone r else if Ascii.eqb c """" then lx (MStr "") r else
       match r with
       | String d r2 =>
         if comment c d then [] else match sym2 c d with Some y => Sy y :: lx MNone r2 | None => sym1 c :: lx MNone r end
       | EmptyString => [sym1 c]
       end)
    end
  end.
Definition lex_line (s : string) : list tok := lx MNone s.

(** A file: the preprocessor lines and the tokens of the other lines. *)
Definition is_directive (l : list tok) : bool := match l with Sy Hash :: _ => true | _ => false end.
Definition directives (lines : list string) : list (list tok) := filter is_directive (map lex_line lines).
Definition tokens (lines : list string) : list tok :=
  concat (filter (fun l => negb (is_directive l)) (map lex_line lines)).
(** The files named by #include "...". *)
Definition include_of (l : list tok) : list string :=
  match l with [Sy Hash; Id i; Str f] => if String.eqb i "include" then [f] else [] | _ => [] end.
Definition includes (lines : list string) : list string := flat_map include_of (directives lines).

(** ** Syntax *)
(** Types and template arguments: a qualified name with arguments; an argument is a list of types or constants, joined
    by | . *)
Inductive cty := Ct (q : list string) (args : list (list cty)).
Inductive expr :=
| EId (q : list string)
| EThis | EBool (b : bool) | ENull | EStr (s : string) | EInit
| EDot (e : expr) (f : string) (targs : list (list cty))
| EArrow (e : expr) (f : string)
| ECall (f : expr) (args : list expr)
| EAssign (l r : expr)
| ENot (e : expr) | EAddr (e : expr) | EDeref (e : expr)
| EOr (a b : expr) | EEq (a b : expr) | ENe (a b : expr)
| ECond (c a b : expr).
Inductive stmt :=
| SSkip
| SSeq (a b : stmt)
| SExpr (e : expr)
| SIf (c : expr) (a b : stmt)
| SReturn (e : option expr)
| SBool (x : string) (e : expr)          (* bool x = e; *)
| SPtr (t : string) (x : string) (e : expr). (* t *x = e; *)

(** Parameters and results: constness, the type, and how it is passed. *)
Inductive pass := ByValue | ByRef | ByMove | ByPtr.
Inductive rty := RVoid | RBool | RType (t : cty).
Record param := Par { p_const : bool; p_type : cty; p_pass : pass; p_name : string }.
Inductive fname := FName (q : list string) | FDtor (n : string) | FOper (q : list string) (op : sym).
Inductive fbody := BDecl | BDefault | BCode (s : stmt).
Inductive item :=
| IUsing (n : string) (t : cty)
| IForward (n : string)
| IClass (q : list string) (l : list item)
| IFriend (n : string)
| IPublic | IProtected
| IField (t : cty) (n : string) (init : bool)   (* t n; or t n = {}; *)
| IFun (ret : option (bool * rty * pass)) (n : fname) (ps : list param) (const : bool) (b : fbody).

(** ** The parser *)
Definition P (A : Type) : Type := list tok -> option (A * list tok).
Definition pret {A} (a : A) : P A := fun l => Some (a, l).
Definition pbind {A B} (p : P A) (f : A -> P B) : P B := fun l => match p l with Some (a, r) => f a r | None => None end.
Local Notation "x <~ p ;; q" := (pbind p (fun x => q)) (at level 100, p at level 99, right associativity).
Definition sym_eqb (a b : sym) : bool :=
  match a, b with
  | LPar, LPar | RPar, RPar | LBrace, LBrace | RBrace, RBrace | Lt, Lt | Gt, Gt | Semi, Semi | Colon, Colon | Comma, Comma
  | Dot, Dot | Eq, Eq | Bang, Bang | Amp, Amp | Bar, Bar | Star, Star | Tilde, Tilde | Quest, Quest | Hash, Hash
  | Slash, Slash | Colons, Colons | Arrow, Arrow | EqEq, EqEq | BangEq, BangEq | BarBar, BarBar | AmpAmp, AmpAmp => true
  | _, _ => false
  end.
(** Expect a symbol. *)
Definition need (y : sym) : P unit :=
  fun l => match l with Sy z :: r => if sym_eqb y z then Some (tt, r) else None | _ => None end.
(** Take a symbol if it is there. *)
Definition opt (y : sym) : P bool :=
  fun l => match l with Sy z :: r => if sym_eqb y z then Some (true, r) else Some (false, l) | _ => Some (false, l) end.
Definition ident : P string := fun l => match l with Id s :: r => Some (s, r) | _ => None end.

(** name { :: name } *)
Fixpoint qrest (n : nat) : P (list string) :=
  match n with
  | O => fun _ => None
  | S m => fun l =>
    match l with
    | Sy Colons :: Id s :: r => match qrest m r with Some (q, r2) => Some (s :: q, r2) | None => None end
    | _ => Some ([], l)
    end
  end.
Definition qname (n : nat) : P (list string) := s <~ ident ;; q <~ qrest n ;; pret (s :: q).

(** The largest depth of nesting the parser accepts. *)
Definition depth : nat := 40.

(** qname [ < arg { , arg } > ], where arg = type { | type }; [bool] is also a type *)
Fixpoint ptype (n : nat) : P cty :=
  match n with
  | O => fun _ => None
  | S m => fun l =>
    match l with
    | Kw KBool :: r => Some (Ct ["bool"] [], r)
    | _ =>
      (q <~ qname n ;; b <~ opt Lt ;;
       if b : bool then (a <~ pargs m ;; _ <~ need Gt ;; pret (Ct q a)) else pret (Ct q [])) l
    end
  end
with pargs (n : nat) : P (list (list cty)) :=
  match n with
  | O => fun _ => None
  | S m =>
    a <~ palts m ;; b <~ opt Comma ;;
    if b : bool then (r <~ pargs m ;; pret (a :: r)) else pret [a]
  end
with palts (n : nat) : P (list cty) :=
  match n with
  | O => fun _ => None
  | S m =>
    t <~ ptype m ;; b <~ opt Bar ;;
    if b : bool then (r <~ palts m ;; pret (t :: r)) else pret [t]
  end.

(** Expressions, by precedence. [<] always opens template arguments. *)
Fixpoint pexpr (n : nat) : P expr :=
  match n with
  | O => fun _ => None
  | S m =>
    a <~ pcond m ;; b <~ opt Eq ;;
    if b : bool then (r <~ pexpr m ;; pret (EAssign a r)) else pret a
  end
with pcond (n : nat) : P expr :=
  match n with
  | O => fun _ => None
  | S m =>
    a <~ por m ;; b <~ opt Quest ;;
    if b : bool then (x <~ pexpr m ;; _ <~ need Colon ;; y <~ pexpr m ;; pret (ECond a x y)) else pret a
  end
with por (n : nat) : P expr :=
  match n with
  | O => fun _ => None
  | S m =>
    a <~ pequ m ;; b <~ opt BarBar ;;
    if b : bool then (r <~ por m ;; pret (EOr a r)) else pret a
  end
with pequ (n : nat) : P expr :=
  match n with
  | O => fun _ => None
  | S m =>
    a <~ pun m ;; b <~ opt EqEq ;;
    if b : bool then (r <~ pun m ;; pret (EEq a r)) else
    c <~ opt BangEq ;;
    if c : bool then (r <~ pun m ;; pret (ENe a r)) else pret a
  end
with pun (n : nat) : P expr :=
  match n with
  | O => fun _ => None
  | S m => fun l =>
    match l with
    | Sy Bang :: r => (e <~ pun m ;; pret (ENot e)) r
    | Sy Amp :: r => (e <~ pun m ;; pret (EAddr e)) r
    | Sy Star :: r => (e <~ pun m ;; pret (EDeref e)) r
    | _ => (e <~ pprim m ;; ppost m e) l
    end
  end
with ppost (n : nat) (e : expr) : P expr :=
  match n with
  | O => fun _ => None
  | S m => fun l =>
    match l with
    | Sy Dot :: r =>
      (f <~ ident ;; b <~ opt Lt ;;
       if b : bool then (a <~ pargs m ;; _ <~ need Gt ;; ppost m (EDot e f a)) else ppost m (EDot e f [])) r
    | Sy Arrow :: r => (f <~ ident ;; ppost m (EArrow e f)) r
    | Sy LPar :: Sy RPar :: r => ppost m (ECall e []) r
    | Sy LPar :: r => (a <~ pactuals m ;; _ <~ need RPar ;; ppost m (ECall e a)) r
    | _ => Some (e, l)
    end
  end
with pactuals (n : nat) : P (list expr) :=
  match n with
  | O => fun _ => None
  | S m =>
    a <~ pexpr m ;; b <~ opt Comma ;;
    if b : bool then (r <~ pactuals m ;; pret (a :: r)) else pret [a]
  end
with pprim (n : nat) : P expr :=
  match n with
  | O => fun _ => None
  | S m => fun l =>
    match l with
    | Sy LPar :: r => (e <~ pexpr m ;; _ <~ need RPar ;; pret e) r
    | Sy LBrace :: Sy RBrace :: r => Some (EInit, r)
    | Str s :: r => Some (EStr s, r)
    | Kw KTrue :: r => Some (EBool true, r)
    | Kw KFalse :: r => Some (EBool false, r)
    | Kw KNull :: r => Some (ENull, r)
    | Kw KThis :: r => Some (EThis, r)
    | _ => (q <~ qname n ;; pret (EId q)) l
    end
  end.

(** Statements up to a closing brace, which is taken as well; [k] bounds their number. *)
Fixpoint pblock (p : P stmt) (k : nat) : P stmt :=
  fun l =>
  match l with
  | Sy RBrace :: r => Some (SSkip, r)
  | _ => match k with O => None | S j => (a <~ p ;; b <~ pblock p j ;; pret (SSeq a b)) l end
  end.
(** Statements; [n] bounds the nesting. *)
Fixpoint pstmt (n : nat) : P stmt :=
  match n with
  | O => fun _ => None
  | S m => fun l =>
    match l with
    | Kw KIf :: r =>
      (_ <~ need LPar ;; c <~ pexpr depth ;; _ <~ need RPar ;; a <~ pstmt m ;;
       fun l2 => match l2 with
                 | Kw KElse :: r2 => (b <~ pstmt m ;; pret (SIf c a b)) r2
                 | _ => Some (SIf c a SSkip, l2)
                 end) r
    | Kw KReturn :: Sy Semi :: r => Some (SReturn None, r)
    | Kw KReturn :: r => (e <~ pexpr depth ;; _ <~ need Semi ;; pret (SReturn (Some e))) r
    | Kw KBool :: r => (x <~ ident ;; _ <~ need Eq ;; e <~ pexpr depth ;; _ <~ need Semi ;; pret (SBool x e)) r
    | Sy LBrace :: r => pblock (pstmt m) (List.length r) r
    | Id t :: Sy Star :: r => (x <~ ident ;; _ <~ need Eq ;; e <~ pexpr depth ;; _ <~ need Semi ;; pret (SPtr t x e)) r
    | _ => (e <~ pexpr depth ;; _ <~ need Semi ;; pret (SExpr e)) l
    end
  end.

(** ** Declarations *)
(** [const] type [& | && | *] name *)
Definition pconst : P bool := fun l => match l with Kw KConst :: r => Some (true, r) | _ => Some (false, l) end.
Definition ppass : P pass :=
  fun l => match l with
           | Sy Amp :: r => Some (ByRef, r) | Sy AmpAmp :: r => Some (ByMove, r) | Sy Star :: r => Some (ByPtr, r)
           | _ => Some (ByValue, l)
           end.
Definition pparam : P param :=
  c <~ pconst ;; t <~ ptype depth ;; p <~ ppass ;; x <~ ident ;; pret (Par c t p x).
Fixpoint pparams (n : nat) : P (list param) :=
  match n with
  | O => fun _ => None
  | S m =>
    a <~ pparam ;; b <~ opt Comma ;; if b : bool then (r <~ pparams m ;; pret (a :: r)) else pret [a]
  end.
Definition pformals : P (list param) :=
  fun l => match l with
           | Sy LPar :: Sy RPar :: r => Some ([], r)
           | _ => (_ <~ need LPar ;; a <~ pparams depth ;; _ <~ need RPar ;; pret a) l
           end.
(** ; or = default; or a body *)
Definition pbody : P fbody :=
  fun l => match l with
           | Sy Semi :: r => Some (BDecl, r)
           | Sy Eq :: Kw KDefault :: Sy Semi :: r => Some (BDefault, r)
           | Sy LBrace :: r => (s <~ pblock (pstmt depth) (List.length r) ;; pret (BCode s)) r
           | _ => None
           end.
(** What follows the name of a function. *)
Definition pfun (ret : option (bool * rty * pass)) (n : fname) : P item :=
  ps <~ pformals ;; c <~ pconst ;; b <~ pbody ;; pret (IFun ret n ps c b).
(** The name of a declared function or variable: a qualified name, or a qualified operator. *)
Fixpoint oname (n : nat) (q : list string) : P fname :=
  match n with
  | O => fun _ => None
  | S m => fun l =>
    match l with
    | Kw KOperator :: Sy y :: r => Some (FOper q y, r)
    | Id s :: Sy Colons :: r => oname m (q ++ [s]) r
    | Id s :: r => Some (FName (q ++ [s]), r)
    | _ => None
    end
  end.
(** A result type. *)
Definition prty : P rty :=
  fun l => match l with
           | Kw KVoid :: r => Some (RVoid, r)
           | Kw KBool :: r => Some (RBool, r)
           | _ => (t <~ ptype depth ;; pret (RType t)) l
           end.
(** A constructor, a function or a variable. *)
Definition pdeclared : P item :=
  fun l =>
  match l with
  | Sy Tilde :: Id n :: r => pfun None (FDtor n) r
  | _ =>
    (c <~ pconst ;; t <~ prty ;;
     fun l2 =>
     match t, l2 with
     | RType (Ct q []), Sy LPar :: _ => pfun None (FName q) l2
     | _, _ =>
       (p <~ ppass ;; n <~ oname depth [] ;;
        fun l3 =>
        match n, l3 with
        | FName [x], Sy Semi :: r =>
          match t with RVoid => None | RBool => Some (IField (Ct ["bool"] []) x false, r) | RType ct => Some (IField ct x false, r) end
        | FName [x], Sy Eq :: Sy LBrace :: Sy RBrace :: Sy Semi :: r =>
          match t with RVoid => None | RBool => Some (IField (Ct ["bool"] []) x true, r) | RType ct => Some (IField ct x true, r) end
        | _, _ => pfun (Some (c, t, p)) n l3
        end) l2
     end) l
  end.
(** One declaration; [members] reads the members of a class. *)
Definition pdecl (members : P (list item)) : P item :=
  fun l =>
  match l with
  | Kw KPublic :: Sy Colon :: r => Some (IPublic, r)
  | Kw KProtected :: Sy Colon :: r => Some (IProtected, r)
  | Kw KUsing :: r => (n <~ ident ;; _ <~ need Eq ;; t <~ ptype depth ;; _ <~ need Semi ;; pret (IUsing n t)) r
  | Kw KFriend :: r => (n <~ ident ;; _ <~ need Semi ;; pret (IFriend n)) r
  | Kw KClass :: Id n :: Sy Semi :: r => Some (IForward n, r)
  | Kw KClass :: r => (q <~ qname depth ;; _ <~ need LBrace ;; m <~ members ;; _ <~ need Semi ;; pret (IClass q m)) r
  | Kw KStatic :: r => pdeclared r
  | Kw KInline :: r => pdeclared r
  | _ => pdeclared l
  end.
(** Declarations up to a closing brace, which is taken as well; [k] bounds their number, [n] the nesting of classes. *)
Fixpoint pdecls (d : P item) (k : nat) : P (list item) :=
  fun l =>
  match l with
  | Sy RBrace :: r => Some ([], r)
  | _ => match k with O => None | S j => (a <~ d ;; b <~ pdecls d j ;; pret (a :: b)) l end
  end.
Fixpoint pnest (n : nat) : P item :=
  match n with
  | O => fun _ => None
  | S m => pdecl (fun l => pdecls (pnest m) (List.length l) l)
  end.
(** A file: namespace name { declarations } ; *)
Definition pfile : list tok -> option (string * list item) :=
  fun l =>
  match l with
  | Kw KNamespace :: Id n :: Sy LBrace :: r =>
    match pdecls (pnest depth) (List.length r) r with
    | Some (d, [Sy Semi]) => Some (n, d)
    | _ => None
    end
  | _ => None
  end.
Definition parse (lines : list string) : option (string * list item) := pfile (tokens lines).
