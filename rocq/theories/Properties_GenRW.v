(** * Properties_GenRW: the C++ text of EntityWriter::Write<T> and EntityReader::Read<T> (C53). *)
From Coq Require Import Strings.String Strings.Ascii.
From Verif Require Import Base Bytes Values Streams Types EntityWriter EntityReader GenText CppText GenTextSpec GenRW CppFun GenRWSpec GenRWFile
  GenRWTheorems GenRWHost GenRWProject.
Local Open Scope string_scope.
Local Open Scope list_scope.
Local Open Scope nat_scope.

(** ** C53: for every list of data types the generator can be used with, the two generated files of the writer are C++ text that declares
    and defines Write for just the listed types in the six containers, each once; and every function writes its object: with the
    function template of the library for the value type of its base type, after the conversion of the items for a type that is stored
    by converting it. The object is not changed. *)
Theorem C53_writer_text : forall l, proper l ->
  (exists hs, file_specs 2 (w_header l) = Some hs /\ names_types l ["Write"] true false hs) /\
  (exists ss, file_specs 1 (w_source l) = Some ss /\ names_types l ["EntityWriter"; "Write"] true true ss /\
   forall St (h : host St), compiled_for l "Write" "dstream" h -> forall n const c st,
     (forall t b, stored_as l t b ->
        call h ss (S n) (type_of t (cval_ctype c)) const c st = omap (fun r => (fst r, c, snd r)) (write_plain h b t c st)) /\
     (forall t i b f, stored_by l t i -> stored_as l i b -> h_conv h t i = Some f ->
        call h ss (S (S n)) (type_of t (cval_ctype c)) const c st = omap (fun r => (fst r, c, snd r)) (write_plain h b i (cmap f c) st))).
Proof.
  intros l P. split; [exact (w_header_names l P)|]. exists (w_all l). split; [exact (w_source_specs l P)|].
  split; [rewrite w_all_picked; apply picked_names; [exact w_pick_type|exact w_pick_shape|apply P]|].
  intros St h C n k c st. split; [intros t b A; exact (w_plain_call l h P C n t b k c st A)|].
  intros t i b f B A Cv. exact (w_over_call l h P C n t i b f k c st B A Cv).
Qed.
Print Assumptions C53_writer_text.

(** The same for the reader. *)
Theorem C53_reader_text : forall l, proper l ->
  (exists hs, file_specs 2 (r_header l) = Some hs /\ names_types l ["Read"] false false hs) /\
  (exists ss, file_specs 1 (r_source l) = Some ss /\ names_types l ["EntityReader"; "Read"] false true ss /\
   forall St (h : host St), compiled_for l "Read" "sstream" h -> forall n dest st,
     (forall t b, stored_as l t b -> call h ss (S n) (type_of t (cval_ctype dest)) false dest st = read_plain h b t dest st) /\
     (forall t i b f, stored_by l t i -> stored_as l i b -> h_conv h i t = Some f ->
        call h ss (S (S n)) (type_of t (cval_ctype dest)) false dest st = read_over h b i f dest st)).
Proof.
  intros l P. split; [exact (r_header_names l P)|]. exists (r_all l). split; [exact (r_source_specs l P)|].
  split; [rewrite r_all_picked; apply picked_names; [exact r_pick_type|exact r_pick_shape|apply P]|].
  intros St h C n c st. split; [intros t b A; exact (r_plain_call l h P C n t b c st A)|].
  intros t i b f B A Cv. exact (r_over_call l h P C n t i b f c st B A Cv).
Qed.
Print Assumptions C53_reader_text.

(** The list of the project: the functions in the generated text are Write and Read of the model (EntityWriter.v, EntityReader.v), which
    the properties of documents are about; whatever uninitialised variables hold. *)
Theorem C53_project_writes :
  exists ss, file_specs 1 (w_source isd_types) = Some ss /\
  forall raw key n t d const c st, base_type_variant n = Some t ->
    call (host_w raw key) ss (S (S d)) (type_of n (cval_ctype c)) const c st = Some (rmap (fun r => (fst r, c, snd r)) (ew_write t key c st)).
Proof.
  exists (w_all isd_types). split; [exact (w_source_specs isd_types isd_proper)|]. intros raw key n t d k c st. exact (project_write raw key n t k d c st).
Qed.
Print Assumptions C53_project_writes.
Theorem C53_project_reads :
  exists ss, file_specs 1 (r_source isd_types) = Some ss /\
  forall e raw key n t d dest st, raw_ok raw -> base_type_variant n = Some t ->
    call (host_r e raw key) ss (S (S d)) (type_of n (cval_ctype dest)) false dest st = Some (er_read e t key dest st).
Proof.
  exists (r_all isd_types). split; [exact (r_source_specs isd_types isd_proper)|]. intros e raw key n t d c st. exact (project_read e raw key n t d c st).
Qed.
Print Assumptions C53_project_reads.

(** ** Witnesses *)
(** The list of the project is proper, and so is one with new types; a list that stores a type by converting it to a type that is
    not in the list is not. *)
Example isd_types_proper : proper isd_types.
Proof. exact isd_proper. Qed.
Definition colours : list base_type := [BT "UInt" [Vr "u32" "u32" 1 false; Vr "code" "u32" 1 true]; BT "Colour" [Vr "rgba" "u8" 4 false]].
Example colours_proper : proper (isd_types ++ [BT "Colour" [Vr "rgba" "u8" 4 false; Vr "tint" "rgba" 1 true]]) /\ proper colours.
Proof. split; apply properb_ok; vm_compute; reflexivity. Qed.
Example missing_item : ~ proper [BT "UInt" [Vr "code" "u32" 1 true]].
Proof.
  intros (_ & _ & _ & H). destruct (H "code" "u32") as (b & e & [<-|[]] & q & o & _); [|discriminate o].
  eexists. split; [left; reflexivity|]. repeat split.
Qed.
Example colours_stored : stored_by colours "code" "u32" /\ stored_as colours "u32" "UInt" /\ stored_as colours "rgba" "Colour".
Proof.
  split; [|split].
  - exists (BT "UInt" [Vr "u32" "u32" 1 false; Vr "code" "u32" 1 true], Vr "code" "u32" 1 true). cbn. auto.
  - exists (BT "UInt" [Vr "u32" "u32" 1 false; Vr "code" "u32" 1 true], Vr "u32" "u32" 1 false). cbn. auto.
  - exists (BT "Colour" [Vr "rgba" "u8" 4 false], Vr "rgba" "u8" 4 false). cbn. auto 6.
Qed.
(** A library that only notes which template is called and with what; a code is stored with its bytes reversed. *)
Definition note : Type := string * string * option (list val) * option (list N).
Definition swap (v : val) : val := match v with VP l => VP (rev l) | _ => v end.
Definition codes (a b : string) : option (val -> val) :=
  if (String.eqb a "code" && String.eqb b "u32") || (String.eqb a "u32" && String.eqb b "code") then Some swap else None.
Definition colour_type (n : string) : bool := inb n ["u32"; "code"; "rgba"].
Definition notes (name stream : string) : host (list note) :=
  Host (list note) name stream colour_type codes (fun _ => VP [x07]) (fun _ => VP [x00])
    (fun vt t => Some (fun o st => Done (true, (vt, t, option_map (fun v => [v]) o, None) :: st)))
    (fun vt t => Some (fun o ix st => Done (true, (vt, t, o, ix) :: st)))
    (fun vt t => Some (fun (em : bool) v st => Done (if em then SEmpty else SOk, VP [x01; x02], (vt, t, Some [v], None) :: st)))
    (fun vt t => Some (fun em l ix st => Done (SOk, l ++ [VP [x01; x02]], option_map (fun _ => [5%N]) ix, (vt, t, Some l, ix) :: st))).
Example colours_compiled : compiled_for colours "Write" "dstream" (notes "Write" "dstream") /\ compiled_for colours "Read" "sstream" (notes "Read" "sstream").
Proof.
  split; (split; [reflexivity|split; [reflexivity|]]); intros e [<-|[<-|[<-|[]]]]; reflexivity.
Qed.
(** The text of the files, parsed and run. *)
Definition run (lines : list string) (h : host (list note)) (n : string) (c : cval) : O (bool * cval * list note) :=
  match file_specs 1 lines with Some ss => call h ss 2 (type_of n (cval_ctype c)) false c [] | None => None end.
Example write_rgba : run (w_source colours) (notes "Write" "dstream") "rgba" (COpt (Some (VP [x03])))
  = Some (Done (true, COpt (Some (VP [x03])), [("VT_Colour", "rgba", Some [VP [x03]], None)])).
Proof. vm_compute. reflexivity. Qed.
Example write_codes : run (w_source colours) (notes "Write" "dstream") "code" (CIdx [VP [x03; x04]; VP [x05; x06]] [1%N; 0%N])
  = Some (Done (true, CIdx [VP [x03; x04]; VP [x05; x06]] [1%N; 0%N],
                [("VT_Array_UInt", "u32", Some [VP [x04; x03]; VP [x06; x05]], Some [1%N; 0%N])])).
Proof. vm_compute. reflexivity. Qed.
Example read_rgba_none : run (r_source colours) (notes "Read" "sstream") "rgba" (COpt (Some (VP [x03])))
  = Some (Done (true, COpt None, [("VT_Colour", "rgba", Some [VP [x00]], None)])).
Proof. vm_compute. reflexivity. Qed.
Example read_code : run (r_source colours) (notes "Read" "sstream") "code" (CV (VP [x03]))
  = Some (Done (true, CV (VP [x02; x01]), [("VT_UInt", "u32", Some [VP [x07]], None)])).
Proof. vm_compute. reflexivity. Qed.
(** The codes read are appended to the vector, but replace the optional vector. *)
Example read_codes : run (r_source colours) (notes "Read" "sstream") "code" (CVec [VP [x03]])
  = Some (Done (true, CVec [VP [x03]; VP [x02; x01]], [("VT_Array_UInt", "u32", Some [], None)])).
Proof. vm_compute. reflexivity. Qed.
Example read_optional_codes : run (r_source colours) (notes "Read" "sstream") "code" (COptIdx (Some ([VP [x03]], [9%N])))
  = Some (Done (true, COptIdx (Some ([VP [x02; x01]], [5%N])), [("VT_Array_UInt", "u32", Some [], Some [])])).
Proof. vm_compute. reflexivity. Qed.
Example raw_zero : raw_ok new_val.
Proof.
  intros n t H. unfold new_val. rewrite H. unfold val_ok. destruct (dshape t) as [| |k m] eqn:E; cbn; [exact Logic.I|reflexivity|].
  rewrite BytesFacts.len_rep. reflexivity.
Qed.
