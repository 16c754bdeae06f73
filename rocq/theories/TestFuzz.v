(** * TestFuzz: the fuzz test of EntityReader. Model of Tests/EntityReaderRandomTests.cpp. *)
From Coq Require Import Strings.String.
From Verif Require Import Base Bytes Values Streams Types EntityWriter EntityReader Items.
Open Scope N_scope.

(** Read calls one after another, whatever their results. *)
Fixpoint attempt_all (e : renv) (l : list item) (s : rstream) : res (list (bool * cval) * rstream) :=
  match l with
  | [] => Done ([], s)
  | i :: l' =>
    do r <- er_read e (i_type i) (i_key i) (i_val i) s; let '(ok, v, s1) := r in
    do r2 <- attempt_all e l' s1; let '(vs, s2) := r2 in Done ((ok, v) :: vs, s2)
  end.
(** The three calls of one round (EntityReaderRandomTests.cpp:34-39); the i32 is not initialised: [v]. *)
Definition fuzz_round (v : list byte) : list item :=
  [Item (TInt I32) (list_byte_of_string "i") (CV (VP v));
   Item (TInt I8) (list_byte_of_string "dv") (CVec []);
   Item TString (list_byte_of_string "ds") (CV (VS []))].
(** One pass (lines 23-40): an EntityReader on the file, 1000 rounds; [vs]: what the uninitialised variable holds
    in each round. *)
Definition fuzz_pass (e : renv) (file : list byte) (flip : bool) (vs : list (list byte)) : res (list (bool * cval) * rstream) :=
  attempt_all e (flat_map fuzz_round vs) (RS file 0 flip).
