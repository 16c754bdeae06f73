(** * CppFun: what the generated functions Write<T> and Read<T> mean. A parser for explicit specialisations of a member function
    template, and an evaluator for the statements they are written in. The files are modelled in GenRW.v; this file has no
    counterpart in /repo, it stands for the C++ compiler (see DESIGN.md). Tokens are those of CppText.v. *)
From Coq Require Import Strings.String Strings.Ascii.
From Verif Require Import Base Types EntityReader GenText CppText.
Local Open Scope string_scope.
Local Open Scope list_scope.

Definition streqb : string -> string -> bool := String.eqb.
(** ** Syntax *)
Inductive xexpr :=
| XName (q : list string) (targs : list (list cty))
| XThis | XBool (b : bool) | XNull
| XDot (e : xexpr) (f : string)
| XArrow (e : xexpr) (f : string) (targs : list (list cty))
| XCall (f : xexpr) (args : list xexpr)
| XIndex (e i : xexpr)
| XAssign (l r : xexpr)
| XNot (e : xexpr) | XAddr (e : xexpr)
| XEq (a b : xexpr) | XNe (a b : xexpr)
| XCond (c a b : xexpr).
Inductive xstmt :=
| XSkip
| XSeq (a b : xstmt)
| XExpr (e : xexpr)
| XIf (c : xexpr) (a b : xstmt)
| XReturn (e : xexpr)
| XBlock (s : xstmt)
| XDecl (const : bool) (t : cty) (ptr : bool) (x : string) (init : option xexpr)
| XFor (i : string) (bound : xexpr) (s : xstmt).   (* for( size_t i = 0; i < bound; ++i ) s *)

(** ** The parser *)
Local Notation "x <~ p ;; q" := (pbind p (fun x => q)) (at level 100, p at level 99, right associativity).
Definition lbracket : ascii := "["%char.
Definition rbracket : ascii := "]"%char.
(** Template arguments in angle brackets, if there are any. *)
Definition ptargs (n : nat) : P (list (list cty)) :=
  b <~ opt Lt ;; if b : bool then (a <~ pargs n ;; _ <~ need Gt ;; pret a) else pret [].

Fixpoint xpexpr (n : nat) : P xexpr :=
  match n with
  | O => fun _ => None
  | S m =>
    a <~ xpcond m ;; b <~ opt Eq ;;
    if b : bool then (r <~ xpexpr m ;; pret (XAssign a r)) else pret a
  end
with xpcond (n : nat) : P xexpr :=
  match n with
  | O => fun _ => None
  | S m =>
    a <~ xpequ m ;; b <~ opt Quest ;;
    if b : bool then (x <~ xpexpr m ;; _ <~ need Colon ;; y <~ xpexpr m ;; pret (XCond a x y)) else pret a
  end
with xpequ (n : nat) : P xexpr :=
  match n with
  | O => fun _ => None
  | S m =>
    a <~ xpun m ;; b <~ opt EqEq ;;
    if b : bool then (r <~ xpun m ;; pret (XEq a r)) else
    c <~ opt BangEq ;;
    if c : bool then (r <~ xpun m ;; pret (XNe a r)) else pret a
  end
with xpun (n : nat) : P xexpr :=
  match n with
  | O => fun _ => None
  | S m => fun l =>
    match l with
    | Sy Bang :: r => (e <~ xpun m ;; pret (XNot e)) r
    | Sy Amp :: r => (e <~ xpun m ;; pret (XAddr e)) r
    | _ => (e <~ xpprim m ;; xppost m e) l
    end
  end
with xppost (n : nat) (e : xexpr) : P xexpr :=
  match n with
  | O => fun _ => None
  | S m => fun l =>
    match l with
    | Sy Dot :: r => (f <~ ident ;; xppost m (XDot e f)) r
    | Sy Arrow :: r => (f <~ ident ;; a <~ ptargs m ;; xppost m (XArrow e f a)) r
    | Sy LPar :: Sy RPar :: r => xppost m (XCall e []) r
    | Sy LPar :: r => (a <~ xpactuals m ;; _ <~ need RPar ;; xppost m (XCall e a)) r
    | Bad c :: r =>
      if Ascii.eqb c lbracket then
        (i <~ xpexpr m ;;
         fun l2 => match l2 with Bad d :: r2 => if Ascii.eqb d rbracket then xppost m (XIndex e i) r2 else None | _ => None end) r
      else Some (e, l)
    | _ => Some (e, l)
    end
  end
with xpactuals (n : nat) : P (list xexpr) :=
  match n with
  | O => fun _ => None
  | S m =>
    a <~ xpexpr m ;; b <~ opt Comma ;;
    if b : bool then (r <~ xpactuals m ;; pret (a :: r)) else pret [a]
  end
with xpprim (n : nat) : P xexpr :=
  match n with
  | O => fun _ => None
  | S m => fun l =>
    match l with
    | Sy LPar :: r => (e <~ xpexpr m ;; _ <~ need RPar ;; pret e) r
    | Kw KTrue :: r => Some (XBool true, r)
    | Kw KFalse :: r => Some (XBool false, r)
    | Kw KNull :: r => Some (XNull, r)
    | Kw KThis :: r => Some (XThis, r)
    | Kw KBool :: r => Some (XName ["bool"] [], r)
    | _ => (q <~ qname n ;; a <~ ptargs m ;; pret (XName q a)) l
    end
  end.

(** Statements up to a closing brace, which is taken as well. *)
Fixpoint xpblock (p : P xstmt) (k : nat) : P xstmt :=
  fun l =>
  match l with
  | Sy RBrace :: r => Some (XSkip, r)
  | _ => match k with O => None | S j => (a <~ p ;; b <~ xpblock p j ;; pret (XSeq a b)) l end
  end.
(** [const] type [star] name [= expression] ; *)
Definition xpdecl : P xstmt :=
  c <~ pconst ;; t <~ ptype depth ;; p <~ opt Star ;; x <~ ident ;; b <~ opt Eq ;;
  if b : bool then (e <~ xpexpr depth ;; _ <~ need Semi ;; pret (XDecl c t p x (Some e)))
  else (_ <~ need Semi ;; pret (XDecl c t p x None)).
(** The head of a loop after the word for: ( size_t i = 0; i < ... up to the bound. *)
Definition for_head (l : list tok) : option (string * list tok) :=
  match l with
  | Sy LPar :: Id t :: Id i :: Sy Eq :: Id z :: Sy Semi :: Id j :: Sy Lt :: r =>
    if streqb t "size_t" && streqb z "0" && streqb i j then Some (i, r) else None
  | _ => None
  end.
(** ; ++i ) *)
Definition for_tail (i : string) : P unit :=
  fun l =>
  match l with
  | Sy Semi :: Bad a :: Bad b :: Id j :: Sy RPar :: r =>
    if Ascii.eqb a "+"%char && Ascii.eqb b "+"%char && streqb i j then Some (tt, r) else None
  | _ => None
  end.
Fixpoint xpstmt (n : nat) : P xstmt :=
  match n with
  | O => fun _ => None
  | S m => fun l =>
    match l with
    | Kw KIf :: r =>
      (_ <~ need LPar ;; c <~ xpexpr depth ;; _ <~ need RPar ;; a <~ xpstmt m ;;
       fun l2 => match l2 with
                 | Kw KElse :: r2 => (b <~ xpstmt m ;; pret (XIf c a b)) r2
                 | _ => Some (XIf c a XSkip, l2)
                 end) r
    | Kw KReturn :: r => (e <~ xpexpr depth ;; _ <~ need Semi ;; pret (XReturn e)) r
    | Sy LBrace :: r => (s <~ xpblock (xpstmt m) (List.length r) ;; pret (XBlock s)) r
    | Id f :: (Sy LPar :: Id _ :: Id _ :: Sy Eq :: _) as r =>
      if streqb f "for" then
        match for_head r with
        | Some (i, r2) => (e <~ xpexpr depth ;; _ <~ for_tail i ;; s <~ xpstmt m ;; pret (XFor i e s)) r2
        | None => None
        end
      else None
    | _ =>
      match xpdecl l with
      | Some x => Some x
      | None => (e <~ xpexpr depth ;; _ <~ need Semi ;; pret (XExpr e)) l
      end
    end
  end.

(** An explicit specialisation, declared (without a body) or defined; what stands before the parameters is the class (when
    qualified), the name of the member function and the type. *)
Record spec := Spec { sp_name : list string; sp_type : cty; sp_params : list param; sp_body : option xstmt }.
Definition pspec : P spec :=
  fun l =>
  match l with
  | Sy Lt :: Sy Gt :: Kw KBool :: r =>
    (q <~ qname depth ;; _ <~ need Lt ;; t <~ ptype depth ;; _ <~ need Gt ;; ps <~ pformals ;;
     fun l2 =>
     match l2 with
     | Sy Semi :: r2 => Some (Spec q t ps None, r2)
     | Sy LBrace :: r2 => (s <~ xpblock (xpstmt depth) (List.length r2) ;; pret (Spec q t ps (Some s))) r2
     | _ => None
     end) r
  | _ => None
  end.

(** ** Files *)
(** The declarations of a file that begin with the words template <>: the depth of the braces around them and their tokens after
    the word template, up to a semicolon or a closing brace. [d]: the depth; [cur]: where the declaration began, and its tokens so
    far, last first. None: the braces do not match, or the file ends in the middle of a declaration. *)
Fixpoint segs (d : nat) (cur : option (nat * list tok)) (l : list tok) : option (list (nat * list tok)) :=
  match l with
  | [] => match d, cur with O, None => Some [] | _, _ => None end
  | Sy LBrace :: r => segs (S d) (match cur with None => None | Some (a, ts) => Some (a, Sy LBrace :: ts) end) r
  | Sy RBrace :: r =>
    match d with
    | O => None
    | S e =>
      match cur with
      | None => segs e None r
      | Some (a, ts) =>
        if Nat.eqb e a then match segs e None r with Some u => Some ((a, rev (Sy RBrace :: ts)) :: u) | None => None end
        else segs e (Some (a, Sy RBrace :: ts)) r
      end
    end
  | Sy Semi :: r =>
    match cur with
    | None => segs d None r
    | Some (a, ts) =>
      if Nat.eqb d a then match segs d None r with Some u => Some ((a, rev (Sy Semi :: ts)) :: u) | None => None end
      else segs d (Some (a, Sy Semi :: ts)) r
    end
  | t :: r =>
    match cur with
    | Some (a, ts) => segs d (Some (a, t :: ts)) r
    | None =>
      match t, r with
      | Id w, Sy Lt :: Sy Gt :: _ => segs d (if streqb w "template" then Some (d, []) else None) r
      | _, _ => segs d None r
      end
    end
  end.
(** All of them are at depth [d] and are specialisations of the subset. *)
Definition whole_spec (ts : list tok) : option spec := match pspec ts with Some (s, []) => Some s | _ => None end.
Fixpoint specs_of (d : nat) (l : list (nat * list tok)) : option (list spec) :=
  match l with
  | [] => Some []
  | (a, ts) :: r =>
    if Nat.eqb a d then
      match whole_spec ts, specs_of d r with Some s, Some u => Some (s :: u) | _, _ => None end
    else None
  end.
Definition file_specs (d : nat) (lines : list string) : option (list spec) :=
  match segs 0 None (tokens lines) with Some l => specs_of d l | None => None end.

(** ** Data *)
Definition tyeqb (a b : string) : bool := String.eqb a b.
Fixpoint cty_eqb (a b : cty) {struct a} : bool :=
  match a, b with
  | Ct p x, Ct q y =>
    (fix names (p q : list string) : bool :=
       match p, q with [], [] => true | s :: p', t :: q' => tyeqb s t && names p' q' | _, _ => false end) p q
    && (fix args (x y : list (list cty)) : bool :=
          match x, y with
          | [], [] => true
          | u :: x', v :: y' =>
            (fix alts (u v : list cty) : bool :=
               match u, v with [], [] => true | s :: u', t :: v' => cty_eqb s t && alts u' v' | _, _ => false end) u v
            && args x' y'
          | _, _ => false
          end) x y
  end.
(** The container and the item type a type stands for. *)
Definition container_of (t : cty) : option (ctype * string) :=
  match t with
  | Ct [n] [] => Some (CtNone, n)
  | Ct [c] [[Ct [n] []]] =>
    if streqb c "optional_value" then Some (CtOpt, n) else
    if streqb c "optional_vector" then Some (CtOptVec, n) else
    if streqb c "idx_vector" then Some (CtIdx, n) else
    if streqb c "optional_idx_vector" then Some (CtOptIdx, n) else None
  | Ct [s; c] [[Ct [n] []]] => if streqb s "std" && streqb c "vector" then Some (CtVec, n) else None
  | _ => None
  end.

(** What the functions are compiled against: the data types with their conversions and the function templates of the library
    (ISD/ISD_EntityWriterTemplates.inl, ISD/ISD_EntityReaderTemplates.inl), for one key. [St]: the state of the stream. *)
Record host (St : Type) := Host {
  h_self : string;                                         (* the member function template the file specialises *)
  h_stream : string;                                       (* the member that holds the stream *)
  h_type : string -> bool;                                 (* the names of the data types *)
  h_conv : string -> string -> option (val -> val);        (* conversions from one type to another, implicit ones *)
  h_raw : string -> val;                                   (* a local variable without initialiser *)
  h_new : string -> val;                                   (* a value-initialised object *)
  h_write1 : string -> string -> option (option val -> St -> res (bool * St));
  h_writen : string -> string -> option (option (list val) -> option (list N) -> St -> res (bool * St));
  h_read1 : string -> string -> option (bool -> val -> St -> res (rstat * val * St));
  h_readn : string -> string -> option (bool -> list val -> option (list N) -> St -> res (rstat * list val * option (list N) * St)) }.
Arguments h_self {St} h. Arguments h_stream {St} h. Arguments h_type {St} h _. Arguments h_conv {St} h _ _. Arguments h_raw {St} h _.
Arguments h_new {St} h _.
Arguments h_write1 {St} h _ _. Arguments h_writen {St} h _ _. Arguments h_read1 {St} h _ _. Arguments h_readn {St} h _ _.

(** Outcomes: None when the text is not in the subset or does not compile. *)
Definition O (A : Type) : Type := option (res A).
Definition obind {A B} (m : O A) (f : A -> O B) : O B :=
  match m with None => None | Some (Done a) => f a | Some Throw => Some Throw | Some Undef => Some Undef end.
Local Notation "x <- m ;; f" := (obind m (fun x => f)) (at level 100, m at level 99, right associativity).
Definition oret {A} (a : A) : O A := Some (Done a).

(** Parts of a variable: all of it, the value of an optional, the vector of values, the index. *)
Inductive part := PWhole | PValue | PValues | PIndex.
Definition place : Type := string * part.
Definition part_eqb (a b : part) : bool :=
  match a, b with PWhole, PWhole | PValue, PValue | PValues, PValues | PIndex, PIndex => true | _, _ => false end.
Definition place_eqb (a b : place) : bool := streqb (fst a) (fst b) && part_eqb (snd a) (snd b).
(** What is there: an object of a data type, or a container of them; or the vector of the i32 of an index. *)
Inductive content := KC (t : string) (c : cval) | KI (ix : list N).
Inductive xv :=
| VKey | VLen | VStream                      (* the key, its length, the stream *)
| VBool (b : bool) | VNum (n : nat) | VStat (s : rstat)
| VNull | VPtr (p : place)
| VLoc (p : place)
| VItem (t : string) (v : val)               (* a temporary of a data type *)
| VBegin (p : place) | VEnd (p : place) | VInserter (p : place) | VMoved (p : place)
| VVoid.
(** Variables: objects are constant or not. *)
Inductive binding := BObj (const : bool) (t : string) (c : cval) | BVal (v : xv).
Definition env : Type := list (string * binding).
Fixpoint set_var (x : string) (b : binding) (E : env) : env :=
  match E with [] => [] | (y, a) :: r => if streqb x y then (y, b) :: r else (y, a) :: set_var x b r end.

(** The content of a place and whether it is constant; the value of an empty optional is a null dereference. *)
Definition view (E : env) (p : place) : O (bool * content) :=
  match assoc (fst p) E with
  | Some (BObj k t c) =>
    match snd p, c with
    | PWhole, _ => oret (k, KC t c)
    | PValue, COpt (Some v) => oret (k, KC t (CV v))
    | PValue, COpt None => Some Undef
    | PValues, COptVec (Some l) => oret (k, KC t (CVec l))
    | PValues, CIdx l _ => oret (k, KC t (CVec l))
    | PValues, COptIdx (Some (l, _)) => oret (k, KC t (CVec l))
    | PIndex, CIdx _ ix => oret (k, KI ix)
    | PIndex, COptIdx (Some (_, ix)) => oret (k, KI ix)
    | PValues, (COptVec None | COptIdx None) => Some Undef
    | PIndex, COptIdx None => Some Undef
    | _, _ => None
    end
  | _ => None
  end.
(** Change a place that is not constant. *)
Definition store (E : env) (p : place) (n : content) : option env :=
  match assoc (fst p) E with
  | Some (BObj false t c) =>
    let put d := Some (set_var (fst p) (BObj false t d) E) in
    match snd p, c, n with
    | PWhole, _, KC u d => if tyeqb t u then put d else None
    | PValue, COpt (Some _), KC u (CV v) => if tyeqb t u then put (COpt (Some v)) else None
    | PValues, COptVec (Some _), KC u (CVec l) => if tyeqb t u then put (COptVec (Some l)) else None
    | PValues, CIdx _ ix, KC u (CVec l) => if tyeqb t u then put (CIdx l ix) else None
    | PValues, COptIdx (Some (_, ix)), KC u (CVec l) => if tyeqb t u then put (COptIdx (Some (l, ix))) else None
    | PIndex, CIdx l _, KI ix => put (CIdx l ix)
    | PIndex, COptIdx (Some (l, _)), KI ix => put (COptIdx (Some (l, ix)))
    | _, _, _ => None
    end
  | _ => None
  end.

Section Eval.
Context {St : Type} (h : host St).
(** A call of the member function template itself: the type, the argument; the result and the argument afterwards. *)
Context (self : cty -> bool -> cval -> St -> O (bool * cval * St)).

Definition state : Type := env * St.
Definition convert (from to : string) (v : val) : option val :=
  if tyeqb from to then Some v else match h_conv h from to with Some f => Some (f v) | None => None end.
Fixpoint convert_all (from to : string) (l : list val) : option (list val) :=
  match l with
  | [] => Some []
  | v :: r => match convert from to v, convert_all from to r with Some w, Some u => Some (w :: u) | _, _ => None end
  end.
(** A value as an object of a data type. *)
Definition item_of (E : env) (v : xv) : O (string * val) :=
  match v with
  | VItem t w => oret (t, w)
  | VLoc p => k <- view E p ;; match k with (_, KC t (CV w)) => oret (t, w) | _ => None end
  | _ => None
  end.
Definition put (s : state) (p : place) (c : content) : O (xv * state) :=
  match store (fst s) p c with Some E => oret (VVoid, (E, snd s)) | None => None end.

(** Member functions of the containers (ISD_optional_value.h:29-34, ISD_optional_vector.h:37-47, ISD_idx_vector.h:41-47,
    ISD_optional_idx_vector.h:37-51 and std::vector): set() stores a value-initialised object or an empty vector; reserve does
    nothing that can be observed. *)
Definition method (s : state) (p : place) (f : string) (args : list xv) : O (xv * state) :=
  let E := fst s in
  k <- view E p ;;
  match k with
  | (k, KC t c) =>
    match args with
    | [] =>
      if streqb f "has_value" then
        match c with
        | COpt o => oret (VBool (match o with Some _ => true | None => false end), s)
        | COptVec o => oret (VBool (match o with Some _ => true | None => false end), s)
        | COptIdx o => oret (VBool (match o with Some _ => true | None => false end), s)
        | _ => None
        end
      else if streqb f "value" then
        match c, snd p with COpt _, PWhole => _ <- view E (fst p, PValue) ;; oret (VLoc (fst p, PValue), s) | _, _ => None end
      else if streqb f "values" then
        match c, snd p with
        | (COptVec _ | CIdx _ _ | COptIdx _), PWhole => _ <- view E (fst p, PValues) ;; oret (VLoc (fst p, PValues), s)
        | _, _ => None
        end
      else if streqb f "index" then
        match c, snd p with
        | (CIdx _ _ | COptIdx _), PWhole => _ <- view E (fst p, PIndex) ;; oret (VLoc (fst p, PIndex), s)
        | _, _ => None
        end
      else if streqb f "size" then match c with CVec l => oret (VNum (length l), s) | _ => None end
      else if streqb f "begin" then match c with CVec _ => oret (VBegin p, s) | _ => None end
      else if streqb f "end" then match c with CVec _ => oret (VEnd p, s) | _ => None end
      else if streqb f "set" then
        match c with
        | COpt _ => put s p (KC t (COpt (Some (h_new h t))))
        | COptVec _ => put s p (KC t (COptVec (Some [])))
        | COptIdx _ => put s p (KC t (COptIdx (Some ([], []))))
        | _ => None
        end
      else if streqb f "reset" then
        match c with
        | COpt _ => put s p (KC t (COpt None))
        | COptVec _ => put s p (KC t (COptVec None))
        | COptIdx _ => put s p (KC t (COptIdx None))
        | _ => None
        end
      else None
    | [a] =>
      if streqb f "reserve" then
        match c, a, k with CVec _, VNum _, false => oret (VVoid, s) | _, _, _ => None end
      else if streqb f "set" then
        match c with
        | COpt _ => i <- item_of E a ;; match convert (fst i) t (snd i) with Some v => put s p (KC t (COpt (Some v))) | None => None end
        | _ => None
        end
      else if streqb f "emplace_back" then
        match c with
        | CVec l => i <- item_of E a ;; match convert (fst i) t (snd i) with Some v => put s p (KC t (CVec (l ++ [v]))) | None => None end
        | _ => None
        end
      else None
    | _ => None
    end
  | (k, KI ix) =>
    match args with
    | [] =>
      if streqb f "size" then oret (VNum (length ix), s)
      else if streqb f "begin" then oret (VBegin p, s)
      else if streqb f "end" then oret (VEnd p, s)
      else None
    | [VNum _] => if streqb f "reserve" && negb k then oret (VVoid, s) else None
    | _ => None
    end
  end.

(** std::copy to a back inserter, std::back_inserter, std::move. *)
Definition std_call (s : state) (f : string) (args : list xv) : O (xv * state) :=
  match args with
  | [VBegin p; VEnd q; VInserter d] =>
    if streqb f "copy" && place_eqb p q && negb (place_eqb p d) then
      a <- view (fst s) p ;; b <- view (fst s) d ;;
      match a, b with
      | (_, KC t (CVec l)), (_, KC u (CVec m)) =>
        match convert_all t u l with Some l2 => put s d (KC u (CVec (m ++ l2))) | None => None end
      | (_, KI l), (_, KI m) => put s d (KI (m ++ l))
      | _, _ => None
      end
    else None
  | [VLoc p] =>
    a <- view (fst s) p ;;
    match a with
    | (false, (KC _ (CVec _) | KI _)) =>
      if streqb f "back_inserter" then oret (VInserter p, s) else if streqb f "move" then oret (VMoved p, s) else None
    | _ => None
    end
  | _ => None
  end.

(** The objects behind the pointer arguments of the library templates. *)
Definition item_at (s : state) (t : string) (v : xv) : O (option val) :=
  match v with
  | VNull => oret None
  | VPtr p => k <- view (fst s) p ;; match k with (_, KC u (CV w)) => if tyeqb t u then oret (Some w) else None | _ => None end
  | _ => None
  end.
Definition vector_at (s : state) (t : string) (v : xv) : O (option (list val)) :=
  match v with
  | VNull => oret None
  | VPtr p => k <- view (fst s) p ;; match k with (_, KC u (CVec l)) => if tyeqb t u then oret (Some l) else None | _ => None end
  | _ => None
  end.
Definition index_at (s : state) (v : xv) : O (option (list N)) :=
  match v with
  | VNull => oret None
  | VPtr p => k <- view (fst s) p ;; match k with (_, KI ix) => oret (Some ix) | _ => None end
  | _ => None
  end.
Definition lift {A B} (r : res A) (f : A -> O B) : O B := obind (Some r) f.

(** f<ValueType::vt,t>( stream, key, key_length, ... ). *)
Definition lib_call (s : state) (f vt t : string) (args : list xv) : O (xv * state) :=
  match args with
  | [VStream; VKey; VLen; p] =>
    if streqb f "write_single_value" then
      match h_write1 h vt t with
      | Some w => v <- item_at s t p ;; lift (w v (snd s)) (fun r => oret (VBool (fst r), (fst s, snd r)))
      | None => None
      end
    else None
  | [VStream; VKey; VLen; VBool e; VPtr p] =>
    if streqb f "read_single_item" then
      match h_read1 h vt t with
      | Some g =>
        v <- item_at s t (VPtr p) ;;
        match v with
        | Some v =>
          lift (g e v (snd s)) (fun r => let '(st, v1, s1) := r in
            match store (fst s) p (KC t (CV v1)) with Some E => oret (VStat st, (E, s1)) | None => None end)
        | None => None
        end
      | None => None
      end
    else None
  | [VStream; VKey; VLen; p; q] =>
    if streqb f "write_array" then
      match h_writen h vt t with
      | Some w => l <- vector_at s t p ;; ix <- index_at s q ;; lift (w l ix (snd s)) (fun r => oret (VBool (fst r), (fst s, snd r)))
      | None => None
      end
    else None
  | [VStream; VKey; VLen; VBool e; VPtr p; q] =>
    if streqb f "read_array" then
      match h_readn h vt t with
      | Some g =>
        l <- vector_at s t (VPtr p) ;; ix <- index_at s q ;;
        match l with
        | Some l =>
          lift (g e l ix (snd s)) (fun r => let '(st, l1, ix1, s1) := r in
            match store (fst s) p (KC t (CVec l1)) with
            | None => None
            | Some E =>
              match q with
              | VNull => oret (VStat st, (E, s1))
              | VPtr d => match store E d (KI (ix_or_nil ix1)) with Some E2 => oret (VStat st, (E2, s1)) | None => None end
              | _ => None
              end
            end)
        | None => None
        end
      | None => None
      end
    else None
  | _ => None
  end.

(** this->Write<T>( key, key_length, x ) and this->Read<T>( key, key_length, x ). *)
Definition self_call (s : state) (t : cty) (args : list xv) : O (xv * state) :=
  match args with
  | [VKey; VLen; VLoc (x, PWhole)] =>
    match assoc x (fst s), container_of t with
    | Some (BObj k u c), Some (_, n) =>
      if tyeqb n u then
        r <- self t k c (snd s) ;; let '(b, d, s1) := r in
        oret (VBool b, (if k then fst s else set_var x (BObj k u d) (fst s), s1))
      else None
    | _, _ => None
    end
  | _ => None
  end.

Definition names_stat (q : list string) : option rstat :=
  match q with
  | [c; f] =>
    if streqb c "reader_status" then
      if streqb f "fail" then Some SFail else if streqb f "success_empty" then Some SEmpty else
      if streqb f "success" then Some SOk else None
    else None
  | _ => None
  end.
Definition stat_eqb (a b : rstat) : bool :=
  match a, b with SFail, SFail | SEmpty, SEmpty | SOk, SOk => true | _, _ => false end.

Fixpoint eval (e : xexpr) (s : state) {struct e} : O (xv * state) :=
  let evals := fix evals (l : list xexpr) (s : state) {struct l} : O (list xv * state) :=
    match l with
    | [] => oret ([], s)
    | a :: r => p <- eval a s ;; let '(v, s1) := p in q <- evals r s1 ;; let '(vs, s2) := q in oret (v :: vs, s2)
    end in
  match e with
  | XName [x] [] =>
    match assoc x (fst s) with Some (BObj _ _ _) => oret (VLoc (x, PWhole), s) | Some (BVal v) => oret (v, s) | None => None end
  | XName q [] => match names_stat q with Some st => oret (VStat st, s) | None => None end
  | XName _ _ => None
  | XThis => None
  | XBool b => oret (VBool b, s)
  | XNull => oret (VNull, s)
  | XDot _ _ => None
  | XArrow XThis f [] => if streqb f (h_stream h) then oret (VStream, s) else None
  | XArrow _ _ _ => None
  | XCall (XDot o f) args =>
    p <- eval o s ;; let '(v, s1) := p in
    match v with
    | VLoc p => q <- evals args s1 ;; let '(vs, s2) := q in method s2 p f vs
    | _ => None
    end
  | XCall (XArrow XThis f [[t]]) args =>
    if streqb f (h_self h) then q <- evals args s ;; let '(vs, s1) := q in self_call s1 t vs else None
  | XCall (XName [f] [[Ct [c; vt] []]; [Ct [t] []]]) args =>
    if streqb c "ValueType" then q <- evals args s ;; let '(vs, s1) := q in lib_call s1 f vt t vs else None
  | XCall (XName [n; f] []) args =>
    if streqb n "std" then q <- evals args s ;; let '(vs, s1) := q in std_call s1 f vs else None
  | XCall (XName [t] []) [a] =>
    if h_type h t then
      p <- eval a s ;; let '(v, s1) := p in
      i <- item_of (fst s1) v ;;
      match convert (fst i) t (snd i) with Some w => oret (VItem t w, s1) | None => None end
    else None
  | XCall _ _ => None
  | XIndex a i =>
    p <- eval a s ;; let '(v, s1) := p in q <- eval i s1 ;; let '(n, s2) := q in
    match v, n with
    | VLoc p, VNum n =>
      k <- view (fst s2) p ;;
      match k with
      | (_, KC t (CVec l)) => match nth_error l n with Some w => oret (VItem t w, s2) | None => Some Undef end
      | _ => None
      end
    | _, _ => None
    end
  | XAssign a b =>
    p <- eval a s ;; let '(v, s1) := p in q <- eval b s1 ;; let '(w, s2) := q in
    match v, w with
    | VLoc d, VItem t x => put s2 d (KC t (CV x))
    | VLoc d, VMoved p =>
      (* the vector moved from is left empty (std::vector move assignment with equal allocators) *)
      if place_eqb d p then None else
      x <- view (fst s2) p ;; y <- view (fst s2) d ;;
      match x, y with
      | (_, KI ix), (_, KI _) =>
        match store (fst s2) d (KI ix) with
        | Some E => match store E p (KI []) with Some E2 => oret (VVoid, (E2, snd s2)) | None => None end
        | None => None
        end
      | _, _ => None
      end
    | _, _ => None
    end
  | XNot a => p <- eval a s ;; match p with (VBool b, s1) => oret (VBool (negb b), s1) | _ => None end
  | XAddr a => p <- eval a s ;; match p with (VLoc d, s1) => oret (VPtr d, s1) | _ => None end
  | XEq a b =>
    p <- eval a s ;; let '(v, s1) := p in q <- eval b s1 ;; let '(w, s2) := q in
    match v, w with VStat x, VStat y => oret (VBool (stat_eqb x y), s2) | _, _ => None end
  | XNe a b =>
    p <- eval a s ;; let '(v, s1) := p in q <- eval b s1 ;; let '(w, s2) := q in
    match v, w with VStat x, VStat y => oret (VBool (negb (stat_eqb x y)), s2) | _, _ => None end
  | XCond c a b =>
    p <- eval c s ;; match p with (VBool x, s1) => if x then eval a s1 else eval b s1 | _ => None end
  end.

(** Local variables. *)
Definition default_content (t : string) (c : ctype) : cval :=
  match c with
  | CtNone => CV (h_raw h t) | CtOpt => COpt None | CtVec => CVec [] | CtOptVec => COptVec None
  | CtIdx => CIdx [] [] | CtOptIdx => COptIdx None
  end.
Definition declare (s : state) (x : string) (b : binding) : O state :=
  match assoc x (fst s) with Some _ => None | None => oret ((x, b) :: fst s, snd s) end.
(** Does a pointer of the declared type point to that content? *)
Definition points (t : cty) (c : content) : bool :=
  match container_of t, c with
  | Some (CtNone, n), KC u (CV _) => tyeqb n u
  | Some (CtVec, n), KC u (CVec _) => tyeqb n u
  | Some (CtVec, n), KI _ => tyeqb n "i32"
  | _, _ => false
  end.
Definition decl (s : state) (const : bool) (t : cty) (ptr : bool) (x : string) (init : option xexpr) : O state :=
  match init with
  | None =>
    match container_of t with
    | Some (c, n) => if negb const && negb ptr && h_type h n then declare s x (BObj false n (default_content n c)) else None
    | None => None
    end
  | Some e =>
    p <- eval e s ;; let '(v, s1) := p in
    match v with
    | VStat st => match t with Ct [n] [] => if streqb n "reader_status" && negb ptr then declare s1 x (BVal v) else None | _ => None end
    | VNull => if ptr && const then declare s1 x (BVal v) else None
    | VPtr p => k <- view (fst s1) p ;; if ptr && const && points t (snd k) then declare s1 x (BVal v) else None
    | VLoc _ | VItem _ _ =>
      match container_of t with
      | Some (CtNone, n) =>
        if negb ptr && h_type h n then
          i <- item_of (fst s1) v ;;
          match convert (fst i) n (snd i) with Some w => declare s1 x (BObj const n (CV w)) | None => None end
        else None
      | _ => None
      end
    | _ => None
    end
  end.

(** Statements: Some b after return b. A loop ends when its condition is false; [fuel] is the value of the bound at its start. *)
Fixpoint loop (body : state -> O (option bool * state)) (i : string) (bound : xexpr) (fuel : nat) (n : nat) (s : state)
  : O (option bool * state) :=
  let E := set_var i (BVal (VNum n)) (fst s) in
  p <- eval bound (E, snd s) ;;
  match p with
  | (VNum m, s1) =>
    if Nat.ltb n m then
      match fuel with
      | 0%nat => None
      | S f => q <- body s1 ;; match q with (None, s2) => loop body i bound f (S n) s2 | (Some b, s2) => oret (Some b, s2) end
      end
    else oret (None, s1)
  | _ => None
  end.
(** Leave a block: its variables end. *)
Definition leave (E : env) (s : state) : state := (skipn (length (fst s) - length E) (fst s), snd s).
Fixpoint exec (c : xstmt) (s : state) : O (option bool * state) :=
  match c with
  | XSkip => oret (None, s)
  | XSeq a b => p <- exec a s ;; match p with (None, s1) => exec b s1 | r => oret r end
  | XExpr e => p <- eval e s ;; oret (None, snd p)
  | XIf e a b =>
    p <- eval e s ;; match p with
                     | (VBool x, s1) => q <- (if x then exec a s1 else exec b s1) ;; oret (fst q, leave (fst s) (snd q))
                     | _ => None
                     end
  | XReturn e => p <- eval e s ;; match p with (VBool b, s1) => oret (Some b, s1) | _ => None end
  | XBlock a => p <- exec a s ;; oret (fst p, leave (fst s) (snd p))
  | XDecl k t ptr x init => s1 <- decl s k t ptr x init ;; oret (None, s1)
  | XFor i e a =>
    s0 <- declare s i (BVal (VNum 0)) ;;
    p <- eval e s0 ;;
    match p with
    | (VNum m, s1) =>
      q <- loop (fun s2 => r <- exec a s2 ;; oret (fst r, leave (fst s0) (snd r))) i e m 0 s1 ;;
      oret (fst q, leave (fst s) (snd q))
    | _ => None
    end
  end.
End Eval.

(** ** Calls *)
(** The signature ( const char *key, const u8 key_length, [const] T &x ). *)
Definition signature (s : spec) : option (string * string * bool * string) :=
  match sp_params s with
  | [Par true (Ct [a] []) ByPtr k; Par true (Ct [b] []) ByValue n; Par c t ByRef x] =>
    if streqb a "char" && streqb b "u8" && cty_eqb t (sp_type s) then Some (k, n, c, x) else None
  | _ => None
  end.
Fixpoint find_spec (t : cty) (l : list spec) : option spec :=
  match l with [] => None | s :: r => if cty_eqb (sp_type s) t then Some s else find_spec t r end.
(** A specialisation called on an object (constant or not): its result, the object afterwards, the stream afterwards. A constant
    object can be passed to a constant reference only. *)
Definition run_spec {St} (h : host St) (self : cty -> bool -> cval -> St -> O (bool * cval * St)) (s : spec) (const : bool)
  (c : cval) (st : St) : O (bool * cval * St) :=
  match signature s, sp_body s, container_of (sp_type s) with
  | Some (x1, x2, ro, x3), Some body, Some (_, n) =>
    if h_type h n && (ro || negb const) then
      r <- exec h self body ([(x3, BObj ro n c); (x2, BVal VLen); (x1, BVal VKey)], st) ;;
      match r with
      | (Some b, (E, s1)) => match assoc x3 E with Some (BObj _ _ c1) => oret (b, c1, s1) | _ => None end
      | _ => None
      end
    else None
  | _, _, _ => None
  end.
(** The function for type [t]; [depth]: how deep the calls are nested at most. *)
Fixpoint call {St} (h : host St) (prog : list spec) (depth : nat) (t : cty) (const : bool) (c : cval) (st : St)
  : O (bool * cval * St) :=
  match depth with
  | 0%nat => None
  | S d => match find_spec t prog with Some s => run_spec h (call h prog d) s const c st | None => None end
  end.
