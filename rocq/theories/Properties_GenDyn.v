(** * Properties_GenDyn: the C++ text of ISD::dynamic_types and of the combined types (C54). *)
From Coq Require Import Strings.String Strings.Ascii.
From Verif Require Import Base Bytes Values Streams Types EntityWriter EntityReader Sections DynTypes GenText CppText GenTextSpec GenRW CppFun GenRWSpec GenRWFile
  GenRWTheorems GenRWHost GenRWProject GenTypes GenTypesSpec GenTypesFacts GenDyn CppDyn GenDynSpec GenDynTheorems GenDynProject.
Local Open Scope string_scope.
Local Open Scope list_scope.
Local Open Scope nat_scope.

(** ** C54: for every list of data types the generator can be used with, the generator ends, and the generated ISD_DynamicTypes.cpp,
    ISD_CombinedTypes.h, ISD_CombinedTypes.cpp and the enumeration of the data types are C++ text that compiles; and for all ids, those of
    the listed types in the six containers and all others, and all calls of the functions of ISD::dynamic_types, on null pointers and on
    objects, the functions in the text end and do what [meant] says: they work on the type and the container with just these ids, and
    fail without any effect if there are none or a pointer is null. *)
Theorem C54_dynamic_types_text : forall l n W R (h : dhost W R), dyn_proper l -> declared l h -> 577 <= n ->
  exists text pg, dyn_source n l = Some text /\
    parse_program [enum_text l; container_enum_text] (comb_header l) (comb_source l) text = Some pg /\ compiles pg = true /\
    forall d k, exists found, (forall t c, found = Some (t, c) <-> listed l d k t c) /\
      forall fuel const q w, 577 < fuel -> run_program h pg fuel (function_name q) (arguments const d k q) w = meant h found q w.
Proof. intros l n W R h. exact (dynamic_types l n h). Qed.
Print Assumptions C54_dynamic_types_text.

(** The list of the project: the functions in the generated text, which call the functions in the generated text of the writer and of the
    reader (C53), are those of the model (DynTypes.v), which C22 is about. *)
Theorem C54_project : forall n, 577 <= n ->
  exists text pg ws rs, dyn_source n isd_types = Some text /\
  parse_program [enum_text isd_types; container_enum_text] (comb_header isd_types) (comb_source isd_types) text = Some pg /\
  file_specs 1 (w_source isd_types) = Some ws /\ file_specs 1 (r_source isd_types) = Some rs /\
  forall e raw key hw hr, raw_ok raw -> forall dt ct q w r fuel const, project_call e key hw hr dt ct q w = Some r -> 577 < fuel ->
    run_program (host_dyn ws rs e raw key hw hr) pg fuel (function_name q) (arguments const dt ct q) w = Some r.
Proof.
  intros n Hn. destruct (project_runs n Hn) as (text & pg & E1 & E2 & H). exists text, pg, (w_all isd_types), (r_all isd_types).
  split; [exact E1|]. split; [exact E2|]. split; [exact (w_source_specs isd_types isd_proper)|]. split; [exact (r_source_specs isd_types isd_proper)|]. exact H.
Qed.
Print Assumptions C54_project.

(** ** Witnesses *)
(** The list of the project, and one with new types; lists with too many variants in one base type, or with a name of the file, are not
    proper. *)
Example isd_types_dyn : dyn_proper isd_types.
Proof. exact isd_dyn_proper. Qed.
Definition paints : list base_type := [BT "UInt" [Vr "u32" "u32" 1 false; Vr "bool" "u32" 1 true]; BT "Colour" [Vr "rgba" "u8" 4 false]].
Example paints_dyn : dyn_proper paints.
Proof. apply dyn_properb_ok. vm_compute. reflexivity. Qed.
Example paints_ids : listed paints 18 0x11 "bool" CtOptVec /\ ~ exists t c, listed paints 19 0x11 t c.
Proof.
  split.
  - split; [|reflexivity]. exists 0, 1, ["u32"; "bool"]. repeat split.
  - intros (t & c & (H & _)). apply enum_in in H. vm_compute in H. decompose [or] H; try contradiction; discriminate.
Qed.
Example name_taken : ~ dyn_proper [BT "UInt" [Vr "hashValue" "u32" 1 false]].
Proof. intros (H & _). destruct (H "hashValue") as (_ & _ & N); [left; reflexivity|]. apply N. cbn. auto 60. Qed.
Example too_many : ~ dyn_proper [BT "A" (map (fun n => Vr n "u32" 1 false) ["a0";"a1";"a2";"a3";"a4";"a5";"a6";"a7";"a8";"a9";"b0";"b1";"b2";"b3";"b4";"b5";"b6"]); BT "B" [Vr "b" "u32" 1 false]].
Proof. intros (_ & _ & H & _). destruct (H 0 16 1 0 _ _ _ _ eq_refl eq_refl eq_refl eq_refl eq_refl) as [X _]. discriminate X. Qed.

(** A host that keeps what is written; reading gives an item. *)
Definition notes_host : dhost (list (string * cval)) nat :=
  DHost _ _ (fun n => true) (fun n => VP [x00]) (fun n => VP [x07])
    (fun t a b => match a, b with CV (VP u), CV (VP v) => if list_eq_dec byte_eq_dec u v then true else false | _, _ => false end)
    (fun t c st => Some (Done (true, (t, c) :: st))) (fun t c st => Some (Done (true, match c with CV _ => CV (VP [x09]) | _ => c end, S st))).
Example paints_declared : declared paints notes_host.
Proof. intros n _. reflexivity. Qed.
(** The text of the list, run. *)
Definition paints_parsed : option program :=
  match dyn_source 577 paints with
  | Some t => parse_program [enum_text paints; container_enum_text] (comb_header paints) (comb_source paints) t
  | None => None
  end.
Definition paints_pg : program := Eval vm_compute in match paints_parsed with Some p => p | None => Prog [] [] [] [] end.
Example paints_text : paints_parsed = Some paints_pg.
Proof. vm_compute. reflexivity. Qed.
Definition go (d k : N) (q : request) (hp : heap) := run_program notes_host paints_pg 578 (function_name q) (arguments true d k q) (World hp [] 0).
Definition hp0 : heap := [Some ("bool", CV (VP [x01])); Some ("rgba", COptVec (Some [VP [x02]])); None; Some ("bool", CV (VP [x01]))].
Example runs_new : go 33 0x11 RNew hp0 = oret (UTuple (UPtr false None 4) true, World (hp0 ++ [Some ("rgba", COptVec None)]) [] 0)
  /\ go 34 0x11 RNew hp0 = oret (UTuple UNull false, World hp0 [] 0).
Proof. split; vm_compute; reflexivity. Qed.
Example runs_others :
  go 18 0 (RDelete (Some 0)) hp0 = oret (UBool true, World [None; Some ("rgba", COptVec (Some [VP [x02]])); None; Some ("bool", CV (VP [x01]))] [] 0)
  /\ go 17 0 (RDelete (Some 0)) hp0 = Some Undef
  /\ go 33 0x11 (RClear (Some 1)) hp0 = oret (UBool true, World [Some ("bool", CV (VP [x01])); Some ("rgba", COptVec None); None; Some ("bool", CV (VP [x01]))] [] 0)
  /\ go 33 0x11 (RWrite (Some 1)) hp0 = oret (UBool true, World hp0 [("rgba", COptVec (Some [VP [x02]]))] 0)
  /\ go 18 0 (RRead (Some 0)) hp0 = oret (UBool true, World [Some ("bool", CV (VP [x09])); Some ("rgba", COptVec (Some [VP [x02]])); None; Some ("bool", CV (VP [x01]))] [] 1)
  /\ go 18 0 (REquals (Some 0) (Some 3)) hp0 = oret (UBool true, World hp0 [] 0)
  /\ go 18 0 (REquals (Some 0) None) hp0 = oret (UBool false, World hp0 [] 0)
  /\ go 18 2 (RCopy (Some 0) (Some 3)) hp0 = oret (UBool false, World hp0 [] 0).
Proof. repeat split; vm_compute; reflexivity. Qed.
(** The hypothesis of C54_project is met by an object of the library and a writer. *)
Definition bools : world wstate rstate :=
  World [Some ("bool", CV (VB true)); Some ("bool", CVec [VB true])] (w_open (WS (repeat x00 100) 0 0 100 false 1000)) (r_open (RS [] 0%N false)).
Example project_case :
  (exists r w, project_call (RE 1000 (fun _ => x00)) [x41] 0 0 (dt_id TBool) (ct_id CtVec) (RWrite (Some 1)) bools = Some (Done (UBool true, w)) /\
     ws_size (w_stream (wo_writer w)) = r /\ (0 < r)%N)
  /\ project_call (RE 1000 (fun _ => x00)) [x41] 0 0 (dt_id TBool) (ct_id CtVec) (RWrite (Some 0)) bools = Some Undef
  /\ project_call (RE 1000 (fun _ => x00)) [x41] 0 0 (dt_id TBool) 5 (RWrite (Some 1)) bools = Some (Done (UBool false, bools)).
Proof. split; [do 2 eexists; split; [vm_compute; reflexivity|split; vm_compute; reflexivity]|]. split; vm_compute; reflexivity. Qed.
