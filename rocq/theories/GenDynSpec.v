(** * GenDynSpec: lists of data types the dynamic types can be generated for, and what the functions of ISD::dynamic_types must do. *)
From Coq Require Import Strings.String Strings.Ascii.
From Verif Require Import Base Types GenText CppText GenTextSpec GenRW GenTypesSpec CppFun CppDyn GenRWSpec.
Local Open Scope string_scope.
Local Open Scope list_scope.

(** ** The lists *)
(** Names the generated files use for themselves. *)
Definition dyn_names : list string :=
  [ "ISD"; "dynamic_types"; "type_combo"; "data_type_index"; "container_type_index"; "data_type"; "container_type"; "other"; "Type"; "New";
    "Delete"; "Clear"; "Write"; "Read"; "Copy"; "Equals"; "EntityWriter"; "EntityReader"; "key"; "key_length"; "writer"; "reader"; "data";
    "dest"; "src"; "dataA"; "dataB"; "combined_type_information"; "data_type_information"; "clear_combined_type"; "type_index";
    "container_index"; "zero"; "typeCombo"; "hashValue"; "type"; "size_t"; "std"; "tuple"; "ta"; "dataType"; "containerType"; "new_type";
    "delete_type"; "clear"; "write"; "read"; "copy"; "equals"; "ISDErrorLog"; "ISDErrorLogEnd"; "optional_value"; "vector";
    "optional_vector"; "idx_vector"; "optional_idx_vector" ].
(** The list by base types: the names of the types. *)
Definition by_base (l : list base_type) : list (list string) := map (fun b => map vr_impl (bt_variants b)) l.
Definition type_names_of (l : list base_type) : list string := concat (by_base l).
(** All names can be written in C++ and do not begin with an underscore, no type is listed twice, no two types have the same number, the
    numbers are values of int, and there are fewer combinations of types with the six containers than places in the table. *)
Definition dyn_proper (l : list base_type) : Prop :=
  (forall n, In n (type_names_of l) -> (ident_ok n = true \/ In n type_words) /\ String.get 0 n <> Some "_"%char /\ ~ In n dyn_names) /\
  NoDup (type_names_of l) /\
  numbers_unique (by_base l) /\
  (forall d n, numbered (by_base l) d n -> (d < 2 ^ 31)%N) /\
  (variants (by_base l) * 6 < 577)%nat.
(** The ids [d] and [k] are those of type [t] in container [c]. *)
Definition listed (l : list base_type) (d k : N) (t : string) (c : ctype) : Prop := numbered (by_base l) d t /\ k = ct_id c.
(** The generated files are compiled where the types of the list are declared. *)
Definition declared {W R} (l : list base_type) (h : dhost W R) : Prop := forall n, In n (type_names_of l) -> g_type h n = true.

(** ** The functions *)
(** A call of one of the functions: the pointers it is given; None is the null pointer. *)
Inductive request :=
| RNew | RDelete (p : option nat) | RClear (p : option nat) | RWrite (p : option nat) | RRead (p : option nat)
| RCopy (dest src : option nat) | REquals (p q : option nat).
Definition function_name (q : request) : string :=
  match q with
  | RNew => "new_type" | RDelete _ => "delete_type" | RClear _ => "clear" | RWrite _ => "write" | RRead _ => "read" | RCopy _ _ => "copy"
  | REquals _ _ => "equals"
  end.
(** Its arguments, after the ids; [k]: pointers to constant objects are given where they are allowed. *)
Definition pointer (k : bool) (p : option nat) : dv := match p with Some a => UPtr k None a | None => UNull end.
Definition arguments (k : bool) (d c : N) (q : request) : list dv :=
  UEnum "data_type_index" d :: UEnum "container_type_index" c ::
  match q with
  | RNew => []
  | RDelete p | RClear p => [pointer false p]
  | RWrite p => [UKey; ULen; UWriter; pointer k p]
  | RRead p => [UKey; ULen; UReader; pointer false p]
  | RCopy p q => [pointer false p; pointer k q]
  | REquals p q => [pointer k p; pointer k q]
  end.

Section Meaning.
Context {W R : Type} (h : dhost W R).
(** The object at address [a] must be of type [t] in container [c]; anything else is undefined. *)
Definition as_object {A} (w : world W R) (a : nat) (t : string) (c : ctype) (f : cval -> O A) : O A :=
  match nth_error (wo_heap w) a with
  | Some (Some (u, v)) => if String.eqb t u && (ctype_eqb c (cval_ctype v)) then f v else Some Undef
  | _ => Some Undef
  end.
Definition store_at (w : world W R) (a : nat) (x : option (string * cval)) : world W R :=
  World (set_at (wo_heap w) a x) (wo_writer w) (wo_reader w).
Definition answer (b : bool) (w : world W R) : O (dv * world W R) := oret (UBool b, w).
(** What a call does, [found]: the type and the container with the ids of the call, if there is one. Null pointers and unknown ids give
    false and change nothing. *)
Definition meant (found : option (string * ctype)) (q : request) (w : world W R) : O (dv * world W R) :=
  match q, found with
  | RNew, None => oret (UTuple UNull false, w)
  | RNew, Some (t, c) =>
    oret (UTuple (UPtr false None (length (wo_heap w))) true,
          World (wo_heap w ++ [Some (t, fresh (g_new h t) c)]) (wo_writer w) (wo_reader w))
  | RDelete (Some a), Some (t, c) => as_object w a t c (fun _ => answer true (store_at w a None))
  | RClear (Some a), Some (t, c) => as_object w a t c (fun _ => answer true (store_at w a (Some (t, fresh (g_zero h t) c))))
  | RWrite (Some a), Some (t, c) =>
    as_object w a t c (fun v => obind (g_write h t v (wo_writer w)) (fun r => answer (fst r) (World (wo_heap w) (snd r) (wo_reader w))))
  | RRead (Some a), Some (t, c) =>
    as_object w a t c (fun v => obind (g_read h t v (wo_reader w)) (fun r =>
      answer (fst (fst r)) (World (set_at (wo_heap w) a (Some (t, snd (fst r)))) (wo_writer w) (snd r))))
  | RCopy (Some a) (Some b), Some (t, c) =>
    as_object w a t c (fun _ => as_object w b t c (fun v => answer true (store_at w a (Some (t, v)))))
  | REquals (Some a) (Some b), Some (t, c) =>
    as_object w a t c (fun v => as_object w b t c (fun u => answer (g_eq h t v u) w))
  | _, _ => answer false w
  end.
End Meaning.
