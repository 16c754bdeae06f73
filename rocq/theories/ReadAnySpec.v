(** * ReadAnySpec: what decides how the Read of a class behaves on arbitrary bytes. Specification, by recursion over the
    definition of the class. *)
From Verif Require Import Base Values Types Accept Keys Containers Graph Classes Table IndexedVector DynTypes Varying EntityGen ItemSpec Format FileSpec Damage.
Local Open Scope N_scope.

(** All variables, at every depth, have names of 1 to 40 bytes. *)
Definition name_ok (n : list byte) : Prop := 0 < len n /\ len n <= 40.
Fixpoint s_named (s : schema) : Prop :=
  match s with
  | STable _ _ s' => s_named s'
  | SEntity fs => f_named fs
  | _ => True
  end
with f_named (fs : fields) : Prop :=
  match fs with
  | FNil => True
  | FBase n _ _ r => name_ok n /\ f_named r
  | FClass n s r | FOpt n s r => name_ok n /\ s_named s /\ f_named r
  end.

(** The containers that are arrays in a stream. *)
Definition array_type (c : ctype) : Prop := match c with CtNone | CtOpt => False | _ => True end.
(** Somewhere in the class there is an array of vectors, matrices or quaternions, or a Varying (which can hold one). *)
Fixpoint s_risky (s : schema) : Prop :=
  match s with
  | SGraph _ _ => False
  | STable _ _ s' => s_risky s'
  | SIdx t => multi_component t
  | SVarying => True
  | SEntity fs => f_risky fs
  end
with f_risky (fs : fields) : Prop :=
  match fs with
  | FNil => False
  | FBase _ t c r => (array_type c /\ multi_component t) \/ f_risky r
  | FClass _ s r | FOpt _ s r => s_risky s \/ f_risky r
  end.

(** Somewhere in the class there is something that allocates memory of a size the stream decides: a string or an
    array (graphs, tables and indexed vectors are arrays, Varyings can be). *)
Fixpoint s_allocates (s : schema) : Prop :=
  match s with SEntity fs => f_allocates fs | _ => True end
with f_allocates (fs : fields) : Prop :=
  match fs with
  | FNil => False
  | FBase _ t c r => array_type c \/ t = TString \/ f_allocates r
  | FClass _ s r | FOpt _ s r => s_allocates s \/ f_allocates r
  end.

(** The values that the Read of a class can ask for: name, type and container. *)
Fixpoint s_asks (s : schema) (n : list byte) (t : dtype) (c : ctype) : Prop :=
  match s with
  | SGraph k _ => (n = key_roots \/ n = key_edges) /\ t = kt k /\ c = CtVec
  | STable k _ s' => (n = key_ids /\ t = kt k /\ c = CtVec) \/ s_asks s' n t c
  | SIdx t' => n = key_values /\ t = t' /\ c = CtIdx
  | SVarying => n = key_data \/ ((n = key_type_ \/ n = key_container) /\ t = TUInt I16 /\ c = CtNone)
  | SEntity fs => f_asks fs n t c
  end
with f_asks (fs : fields) (n : list byte) (t : dtype) (c : ctype) : Prop :=
  match fs with
  | FNil => False
  | FBase n' t' c' r => (n = n' /\ t = t' /\ c = c') \/ f_asks r n t c
  | FClass _ s r | FOpt _ s r => s_asks s n t c \/ f_asks r n t c
  end.

(** Why a read from [data] that began at [pos] ran out of memory: a string or array it asks for, and either less than
    four times the data could be allocated, or at the start of what is, from some place on, a block with this name the
    sizes are damaged (Damage.v). *)
Definition refused (lim : N) (data : list byte) (flip : bool) (pos : N) (asks : list byte -> dtype -> ctype -> Prop) : Prop :=
  exists n t c, asks n t c /\ (array_type c \/ t = TString) /\
    (lim < 4 * len data \/
     exists q, pos <= q <= len data /\ size_damage flip q t (cval_default t c) n (drop q data)).
(** Why it wrote outside of an object: an array of vectors, matrices or quaternions it asks for, and somewhere a block
    with this name whose item count is no multiple of the number of components. *)
Definition overrun (data : list byte) (flip : bool) (pos : N) (asks : list byte -> dtype -> ctype -> Prop) : Prop :=
  exists n t c q, asks n t c /\ (array_type c /\ multi_component t) /\
    pos <= q <= len data /\ count_damage flip t n (drop q data).
