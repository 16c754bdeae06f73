(** * GenRWSpec: lists of data types the generator can be used with, and what Write<T> and Read<T> must do for them. *)
From Coq Require Import Strings.String Strings.Ascii.
From Verif Require Import Base Types EntityReader GenText CppText GenTextSpec GenRW CppFun.
Local Open Scope string_scope.
Local Open Scope list_scope.

(** ** The lists *)
(** Names the generated functions use for themselves. *)
Definition rw_names : list string :=
  [ "key"; "key_length"; "src_variable"; "dest_variable"; "tmp_variable"; "p_src_variable"; "p_src_values"; "p_src_index"; "status"; "i";
    "std"; "size_t"; "ValueType"; "reader_status"; "write_single_value"; "write_array"; "read_single_item"; "read_array";
    "optional_value"; "optional_vector"; "idx_vector"; "optional_idx_vector" ].
(** A type can be named by an identifier or by a word of the language for a type. *)
Definition type_words : list string := [ "bool"; "char"; "wchar_t"; "char16_t"; "char32_t"; "short"; "int"; "long"; "float"; "double" ].
Definition name_ok (n : string) : Prop := (ident_ok n = true \/ In n type_words) /\ ~ In n rw_names.
(** The implementing types of a list, with the base type each belongs to. *)
Definition entries (l : list base_type) : list (base_type * variant) := flat_map (fun b => map (pair b) (bt_variants b)) l.
(** [t] is stored as it is, as a value of base type [b]. *)
Definition stored_as (l : list base_type) (t b : string) : Prop :=
  exists e, In e (entries l) /\ vr_impl (snd e) = t /\ vr_override (snd e) = false /\ bt_name (fst e) = b.
(** [t] is stored by converting it to [i]. *)
Definition stored_by (l : list base_type) (t i : string) : Prop :=
  exists e, In e (entries l) /\ vr_impl (snd e) = t /\ vr_override (snd e) = true /\ vr_item (snd e) = i.
(** All names can be written in C++, no type is listed twice, and a type is only stored by converting it to one that is stored
    as it is. *)
Definition proper (l : list base_type) : Prop :=
  (forall b, In b l -> all_chars id_char (bt_name b) = true) /\
  (forall e, In e (entries l) -> name_ok (vr_impl (snd e))) /\
  NoDup (map (fun e => vr_impl (snd e)) (entries l)) /\
  (forall t i, stored_by l t i -> exists b, stored_as l i b).

(** ** The types *)
Definition type_of (n : string) (c : ctype) : cty :=
  let t := Ct [n] [] in
  match c with
  | CtNone => t | CtOpt => Ct ["optional_value"] [[t]] | CtVec => Ct ["std"; "vector"] [[t]]
  | CtOptVec => Ct ["optional_vector"] [[t]] | CtIdx => Ct ["idx_vector"] [[t]] | CtOptIdx => Ct ["optional_idx_vector"] [[t]]
  end.
(** The specialisations a file declares or defines: the name, the type, the constness of the last parameter; in any order, each once,
    and just for the types of the list in the six containers. *)
Definition names_types (l : list base_type) (name : list string) (ro body : bool) (ss : list spec) : Prop :=
  NoDup (map sp_type ss) /\
  (forall t, In t (map sp_type ss) <-> exists e c, In e (entries l) /\ t = type_of (vr_impl (snd e)) c) /\
  (forall s, In s ss -> sp_name s = name /\ (match sp_body s with Some _ => true | None => false end) = body /\
     exists k n x, signature s = Some (k, n, ro, x)).

(** ** What the functions must do *)
Section Meaning.
Context {St : Type} (h : host St).
Definition omap {A B} (f : A -> B) (o : O A) : O B := obind o (fun a => oret (f a)).
Definition instance {A} (f : option A) {B} (g : A -> res B) : O B := match f with Some a => Some (g a) | None => None end.
(** The conversion of all items. *)
Definition cmap (f : val -> val) (c : cval) : cval :=
  match c with
  | CV v => CV (f v) | COpt o => COpt (option_map f o) | CVec l => CVec (map f l) | COptVec o => COptVec (option_map (map f) o)
  | CIdx l ix => CIdx (map f l) ix | COptIdx o => COptIdx (option_map (fun p => (map f (fst p), snd p)) o)
  end.

(** Write<T> for a type stored as it is: the template for single values or for arrays, for the value type of the base type, on the
    value or the vector if there is one, and on the index. *)
Definition write_plain (b t : string) (c : cval) (st : St) : O (bool * St) :=
  let single := h_write1 h ("VT_" ^^ b) t in
  let array := h_writen h ("VT_Array_" ^^ b) t in
  match c with
  | CV v => instance single (fun w => w (Some v) st)
  | COpt o => instance single (fun w => w o st)
  | CVec l => instance array (fun w => w (Some l) None st)
  | COptVec o => instance array (fun w => w o None st)
  | CIdx l ix => instance array (fun w => w (Some l) (Some ix) st)
  | COptIdx o => instance array (fun w => w (option_map fst o) (option_map snd o) st)
  end.

(** Read<T> for a type stored as it is: optional objects are set first, and reset if the value is empty. *)
Definition read_plain (b t : string) (dest : cval) (st : St) : O (bool * cval * St) :=
  let single := h_read1 h ("VT_" ^^ b) t in
  let array := h_readn h ("VT_Array_" ^^ b) t in
  match dest with
  | CV v => omap (fun r => let '(k, v1, s1) := r in (st_ok k, CV v1, s1)) (instance single (fun g => g false v st))
  | COpt _ =>
    omap (fun r => let '(k, v1, s1) := r in (st_ok k, match k with SEmpty => COpt None | _ => COpt (Some v1) end, s1))
      (instance single (fun g => g true (h_new h t) st))
  | CVec l => omap (fun r => let '(k, l1, _, s1) := r in (st_ok k, CVec l1, s1)) (instance array (fun g => g false l None st))
  | COptVec _ =>
    omap (fun r => let '(k, l1, _, s1) := r in (st_ok k, match k with SEmpty => COptVec None | _ => COptVec (Some l1) end, s1))
      (instance array (fun g => g true [] None st))
  | CIdx l ix =>
    omap (fun r => let '(k, l1, ix1, s1) := r in (st_ok k, CIdx l1 (ix_or_nil ix1), s1)) (instance array (fun g => g false l (Some ix) st))
  | COptIdx _ =>
    omap (fun r => let '(k, l1, ix1, s1) := r in
                   (st_ok k, match k with SEmpty => COptIdx None | _ => COptIdx (Some (l1, ix_or_nil ix1)) end, s1))
      (instance array (fun g => g true [] (Some []) st))
  end.
(** Read<T> for a type stored by converting it: a fresh object of the stored type is read; on success its items are converted
    and replace the object, but are appended to a vector. On failure the object is as before. *)
Definition taken_over (f : val -> val) (dest tmp : cval) : cval :=
  match dest, tmp with
  | CVec l, CVec l1 => CVec (l ++ map f l1)
  | CIdx l _, CIdx l1 ix1 => CIdx (l ++ map f l1) ix1
  | _, _ => cmap f tmp
  end.
Definition read_over (b i : string) (f : val -> val) (dest : cval) (st : St) : O (bool * cval * St) :=
  omap (fun r => let '(ok, tmp, s1) := r in if ok : bool then (true, taken_over f dest tmp, s1) else (false, dest, s1))
    (read_plain b i (default_content h i (cval_ctype dest)) st).
End Meaning.
(** A file that specialises member function [name] of a class whose stream is [stream] is compiled where all the types of the list
    are declared. *)
Definition compiled_for {St} (l : list base_type) (name stream : string) (h : host St) : Prop :=
  h_self h = name /\ h_stream h = stream /\ (forall e, In e (entries l) -> h_type h (vr_impl (snd e)) = true).
