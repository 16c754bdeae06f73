(** * GenDynProject: the generated functions of ISD::dynamic_types of the project are those of DynTypes.v. Definitions for the statement, and proofs. *)
From Coq Require Import Strings.String Strings.Ascii.
From Verif Require Import Base Bytes Values Streams Types EntityWriter EntityReader Sections ValueEq DynTypes DynTypesFacts GenText CppText GenTextSpec
  GenRW CppFun GenRWSpec GenRWFile GenRWTheorems GenRWHost GenRWProject GenTypes GenTypesSpec GenTypesFacts GenDyn CppDyn GenDynSpec GenDynAst GenDynCheck GenDynRun
  GenDynTheorems.
Local Open Scope string_scope.
Local Open Scope list_scope.
Local Open Scope nat_scope.

(** ** What the generated file is compiled with *)
(** The types of the library; the functions Write and Read it calls are those of the generated files of the writer and of the reader
    ([ws], [rs]: C53), on the section with handle [hw] of the document [wstate], [hr] of [rstate]; [key]: the key that is passed on.
    Simplification: data_type_information<T>::zero is the value-initialised object (ISD_DataTypes.py writes it out), operator== of the
    containers is cval_eq (ValueEq.v). *)
Definition host_dyn (ws rs : list spec) (e : renv) (raw : string -> val) (key : list byte) (hw hr : N) : dhost wstate rstate :=
  DHost _ _ is_type new_val new_val
    (fun n a b => match base_type_variant n with Some t => cval_eq t a b | None => false end)
    (fun n c st =>
       match split_at wf_id hw (w_chain st) with
       | None => Some Undef
       | Some _ => obind (call (host_w raw key) ws 2 (type_of n (cval_ctype c)) true c (w_stream st)) (fun r =>
           let '(ok, _, s1) := r in oret (ok, WSt s1 (w_chain st) (w_next st)))
       end)
    (fun n c st =>
       match split_at rf_id hr (r_chain st) with
       | None => Some Undef
       | Some _ => obind (call (host_r e raw key) rs 2 (type_of n (cval_ctype c)) false c (r_stream st)) (fun r =>
           let '(ok, v, s1) := r in oret (ok, v, RSt s1 (r_chain st) (r_next st)))
       end).

(** ** Objects in memory and objects of DynTypes.v *)
Definition name_of (t : dtype) : string := match find (fun p => if dtype_dec t (snd p) then true else false) type_names with Some p => fst p | None => "" end.
(** The object at [p], if it is a null pointer or there is an object of a type of the library. *)
Definition load (w : world wstate rstate) (p : option nat) : option (option obj) :=
  match p with
  | None => Some None
  | Some a =>
    match nth_error (wo_heap w) a with
    | Some (Some (n, v)) => match base_type_variant n with Some t => Some (Some (Obj (t, cval_ctype v) v)) | None => None end
    | _ => None
    end
  end.
(** The object at [p] after a call. *)
Definition put_back (w : world wstate rstate) (p : option nat) (o : option obj) : world wstate rstate :=
  match p, o with
  | Some a, Some x => World (set_at (wo_heap w) a (Some (name_of (fst (o_class x)), o_val x))) (wo_writer w) (wo_reader w)
  | _, _ => w
  end.
Definition gone (w : world wstate rstate) (p : option nat) : world wstate rstate :=
  match p with Some a => World (set_at (wo_heap w) a None) (wo_writer w) (wo_reader w) | None => w end.
(** The calls, with the functions of DynTypes.v; None: a pointer is not valid. *)
Definition project_call (e : renv) (key : list byte) (hw hr dt ct : N) (q : request) (w : world wstate rstate) : option (res (dv * world wstate rstate)) :=
  match q with
  | RNew =>
    Some (match dyn_new dt ct with
          | None => Done (UTuple UNull false, w)
          | Some o => Done (UTuple (UPtr false None (length (wo_heap w))) true,
                            World (wo_heap w ++ [Some (name_of (fst (o_class o)), o_val o)]) (wo_writer w) (wo_reader w))
          end)
  | RDelete p =>
    match load w p with Some x => Some (do b <- dyn_delete dt ct x; Done (UBool b, if b then gone w p else w)) | None => None end
  | RClear p =>
    match load w p with Some x => Some (do r <- dyn_clear dt ct x; Done (UBool (fst r), put_back w p (snd r))) | None => None end
  | RWrite p =>
    match load w p with
    | Some x => Some (do r <- dyn_write dt ct key hw x (wo_writer w); Done (UBool (fst r), World (wo_heap w) (snd r) (wo_reader w)))
    | None => None
    end
  | RRead p =>
    match load w p with
    | Some x => Some (do r <- dyn_read e dt ct key hr x (wo_reader w);
        let '(b, y, rd) := r in let w1 := put_back w p y in Done (UBool b, World (wo_heap w1) (wo_writer w1) rd))
    | None => None
    end
  | RCopy p q =>
    match load w p, load w q with Some x, Some y => Some (do r <- dyn_copy dt ct x y; Done (UBool (fst r), put_back w p (snd r))) | _, _ => None end
  | REquals p q =>
    match load w p, load w q with Some x, Some y => Some (do b <- dyn_equals dt ct x y; Done (UBool b, w)) | _, _ => None end
  end.

(** ** Proofs *)
Definition dyn_properb (l : list base_type) : bool :=
  forallb (fun n => (ident_ok n || inb n type_words) && (match String.get 0 n with Some c => negb (Ascii.eqb c "_") | None => true end) && negb (inb n dyn_names)) (type_names_of l)
  && distinct (type_names_of l)
  && forallb (fun vs => length vs <=? 16) (by_base l)
  && forallb (fun x => N.ltb (fst x) 2147483648) (type_enum (by_base l))
  && (variants (by_base l) * 6 <? 577).
Lemma dyn_properb_ok l : dyn_properb l = true -> dyn_proper l.
Proof.
  unfold dyn_properb. intros H. apply andb_prop in H. destruct H as [H H5]. apply andb_prop in H. destruct H as [H H4]. apply andb_prop in H.
  destruct H as [H H3]. apply andb_prop in H. destruct H as [H1 H2]. rewrite forallb_forall in H1, H3, H4. split; [|split; [|split; [|split]]].
  - intros n i. specialize (H1 n i). apply andb_prop in H1. destruct H1 as [Q Q3]. apply andb_prop in Q. destruct Q as [Q1 Q2]. split; [|split].
    + apply orb_prop in Q1. destruct Q1 as [Q1|Q1]; [left; exact Q1|right]. apply inb_iff. exact Q1.
    + intros E. rewrite E in Q2. discriminate Q2.
    + intros j. apply inb_iff in j. rewrite j in Q3. discriminate Q3.
  - apply distinct_ok. exact H2.
  - apply unique_small. intros i vs E _. apply nth_error_In in E. apply Nat.leb_le. exact (H3 _ E).
  - intros d n E. apply enum_in in E. specialize (H4 _ E). apply N.ltb_lt in H4. exact H4.
  - apply Nat.ltb_lt. exact H5.
Qed.
Lemma isd_dyn_proper : dyn_proper isd_types.
Proof. apply dyn_properb_ok. vm_compute. reflexivity. Qed.
Lemma name_type t : base_type_variant (name_of t) = Some t.
Proof.
  assert (Q : forallb (fun t => match base_type_variant (name_of t) with Some u => if dtype_dec t u then true else false | None => false end) all_dtypes = true) by (vm_compute; reflexivity).
  rewrite forallb_forall in Q. specialize (Q t (all_dtypes_all t)). destruct (base_type_variant (name_of t)) as [u|]; [|discriminate Q].
  destruct (dtype_dec t u) as [->|]; [reflexivity|discriminate Q].
Qed.
Lemma type_name n t : base_type_variant n = Some t -> name_of t = n.
Proof. intros H. apply assoc_in in H. unfold type_names in H. repeat (destruct H as [H|H]; [injection H as <- <-; reflexivity|]). destruct H. Qed.
Lemma isd_enum : type_enum (by_base isd_types) = map (fun t => (dt_id t, name_of t)) all_dtypes.
Proof. vm_compute. reflexivity. Qed.
Lemma isd_numbered d n : numbered (by_base isd_types) d n <-> exists t, base_type_variant n = Some t /\ dt_id t = d.
Proof.
  rewrite <- enum_in, isd_enum, in_map_iff. split.
  - intros (t & E & _). injection E as <- <-. exists t. split; [apply name_type|reflexivity].
  - intros (t & E & <-). exists t. split; [|apply all_dtypes_all]. rewrite (type_name n t E). reflexivity.
Qed.
Lemma isd_declared ws rs e raw key hw hr : declared isd_types (host_dyn ws rs e raw key hw hr).
Proof.
  intros n i. cbn [g_type host_dyn]. unfold is_type. rewrite <- enum_names in i. apply in_map_iff in i. destruct i as ((d, m) & <- & i). cbn [snd].
  apply enum_in, isd_numbered in i. destruct i as (t & E & _). rewrite E. reflexivity.
Qed.
Definition class_names (k : option tclass) : option (string * ctype) := match k with Some (t, c) => Some (name_of t, c) | None => None end.
Lemma isd_found dt ct n c : class_names (find_class dt ct) = Some (n, c) <-> listed isd_types dt ct n c.
Proof.
  unfold listed. rewrite isd_numbered. split.
  - destruct (find_class dt ct) as [[t c']|] eqn:F; [|discriminate]. intros E. injection E as <- <-. apply find_class_iff in F. injection F as <- <-.
    split; [|reflexivity]. exists t. split; [apply name_type|reflexivity].
  - intros ((t & E & <-) & ->). rewrite (proj2 (find_class_iff (dt_id t) (ct_id c) (t, c)) eq_refl). cbn [class_names]. rewrite (type_name n t E). reflexivity.
Qed.
Lemma load_some w a x : load w (Some a) = Some x -> exists n v t, nth_error (wo_heap w) a = Some (Some (n, v)) /\ base_type_variant n = Some t /\ x = Some (Obj (t, cval_ctype v) v).
Proof.
  cbn [load]. destruct (nth_error (wo_heap w) a) as [[[n v]|]|]; try discriminate. destruct (base_type_variant n) as [t|] eqn:E; [|discriminate].
  intros H. injection H as <-. eauto 8.
Qed.
Lemma load_as {A} w a o t c (f : cval -> CppFun.O A) : load w (Some a) = Some (Some o) ->
  as_object w a (name_of t) c f = if class_is (t, c) o then f (o_val o) else Some Undef.
Proof.
  intros H. apply load_some in H. destruct H as (n & v & u & E1 & E2 & E3). injection E3 as ->. unfold as_object, class_is. rewrite E1. cbn [o_class o_val fst snd].
  replace (String.eqb (name_of t) n) with (if dtype_dec t u then true else false).
  - replace (ctype_eqb c (cval_ctype v)) with (if ctype_dec c (cval_ctype v) then true else false); [reflexivity|]. destruct c, v; reflexivity.
  - destruct (dtype_dec t u) as [->|N]; [rewrite (type_name n u E2), String.eqb_refl; reflexivity|]. symmetry. apply String.eqb_neq. intros <-. apply N.
    rewrite name_type in E2. injection E2 as ->. reflexivity.
Qed.
Lemma set_same hp : forall a x, nth_error hp a = Some x -> set_at hp a x = hp.
Proof. induction hp as [|y r IH]; intros [|a] x E; try discriminate E; cbn [nth_error] in E; cbn [set_at]; [injection E as ->; reflexivity|]. rewrite (IH a x E). reflexivity. Qed.
Lemma put_same w p x : load w p = Some x -> put_back w p x = w.
Proof.
  destruct p as [a|]; [|intros _; reflexivity]. intros H. apply load_some in H. destruct H as (n & v & t & E1 & E2 & ->). cbn [put_back o_class o_val fst].
  rewrite (type_name n t E2), (set_same _ _ _ E1). destruct w; reflexivity.
Qed.
Lemma class_ctype k o w p : load w p = Some (Some o) -> class_is k o = true -> cval_ctype (o_val o) = snd k /\ fst (o_class o) = fst k.
Proof.
  destruct p as [a|]; [|discriminate]. intros H. apply load_some in H. destruct H as (n & v & t & _ & _ & E). injection E as ->. unfold class_is. cbn [o_class o_val fst snd].
  intros E. apply andb_prop in E. destruct E as [E1 E2]. destruct (dtype_dec (fst k) t) as [<-|]; [|discriminate E1]. destruct (ctype_dec (snd k) (cval_ctype v)) as [<-|]; [|discriminate E2]. auto.
Qed.
Lemma fresh_default t c : fresh (new_val (name_of t)) c = cval_default t c.
Proof. unfold new_val. rewrite name_type. destruct c; reflexivity. Qed.
Lemma fresh_clear t v : fresh (new_val (name_of t)) (cval_ctype v) = clear_combined t v.
Proof. unfold new_val. rewrite name_type. destruct v; reflexivity. Qed.

Section Project.
Context (e : renv) (raw : string -> val) (key : list byte) (hw hr : N) (RW : raw_ok raw).
Local Notation h := (host_dyn (w_all isd_types) (r_all isd_types) e raw key hw hr).
Lemma host_writes t c st : g_write h (name_of t) c st = Some (w_write hw t key c st).
Proof.
  cbn [g_write host_dyn]. unfold w_write. destruct (split_at wf_id hw (w_chain st)); [|reflexivity].
  rewrite (project_write raw key (name_of t) t true 0 c (w_stream st) (name_type t)). destruct (ew_write t key c (w_stream st)) as [[ok s1]| |]; reflexivity.
Qed.
Lemma host_reads t c st : g_read h (name_of t) c st = Some (r_read e hr t key c st).
Proof.
  cbn [g_read host_dyn]. unfold r_read. destruct (split_at rf_id hr (r_chain st)); [|reflexivity].
  rewrite (project_read e raw key (name_of t) t 0 c (r_stream st) RW (name_type t)). destruct (er_read e t key c (r_stream st)) as [[[ok v] s1]| |]; reflexivity.
Qed.
Lemma host_equal t a b : g_eq h (name_of t) a b = cval_eq t a b.
Proof. cbn [g_eq host_dyn]. rewrite name_type. reflexivity. Qed.
Theorem project_meant dt ct q w r : project_call e key hw hr dt ct q w = Some r -> meant h (class_names (find_class dt ct)) q w = Some r.
Proof.
  unfold project_call. destruct q as [|p|p|p|p|p p'|p p'].
  - intros E. injection E as <-. unfold dyn_new, meant. destruct (find_class dt ct) as [[t c]|]; [|reflexivity]. cbn [class_names cls_new o_class o_val fst snd g_new host_dyn].
    rewrite fresh_default. reflexivity.
  - destruct (load w p) as [x|] eqn:L; [|discriminate]. intros E. injection E as <-. unfold dyn_delete, dyn_with, meant. destruct p as [a|].
    + pose proof (load_some w a x L) as (n & v & u & _ & _ & ->). destruct (find_class dt ct) as [[t c]|]; [|reflexivity]. cbn [class_names]. rewrite (load_as w a _ t c _ L).
      unfold as_class. destruct (class_is (t, c) _); reflexivity.
    + injection L as <-. destruct (class_names (find_class dt ct)) as [[t c]|]; reflexivity.
  - destruct (load w p) as [x|] eqn:L; [|discriminate]. intros E. injection E as <-. unfold dyn_clear, dyn_with, meant. destruct p as [a|].
    + pose proof (load_some w a x L) as (n & v & u & _ & _ & ->). destruct (find_class dt ct) as [[t c]|].
      * cbn [class_names]. rewrite (load_as w a _ t c _ L). unfold as_class. destruct (class_is (t, c) _) eqn:Ci; [|reflexivity].
        destruct (class_ctype _ _ _ _ L Ci) as [Q1 Q2]. cbn [o_val snd] in Q1. unfold answer, store_at, put_back. cbn [bind fst snd o_class o_val g_zero host_dyn].
        rewrite <- Q1, fresh_clear. reflexivity.
      * cbn [class_names bind fst snd]. rewrite (put_same w (Some a) _ L). reflexivity.
    + injection L as <-. destruct (class_names (find_class dt ct)) as [[t c]|]; reflexivity.
  - destruct (load w p) as [x|] eqn:L; [|discriminate]. intros E. injection E as <-. unfold dyn_write, dyn_with, meant. destruct p as [a|].
    + pose proof (load_some w a x L) as (n & v & u & _ & _ & ->). destruct (find_class dt ct) as [[t c]|].
      * cbn [class_names]. rewrite (load_as w a _ t c _ L). unfold as_class. destruct (class_is (t, c) _) eqn:Ci; [|reflexivity]. rewrite host_writes. cbn [o_val fst].
        destruct (w_write hw t key v (wo_writer w)) as [[b s1]| |]; reflexivity.
      * cbn [class_names bind fst snd]. destruct w; reflexivity.
    + injection L as <-. destruct (class_names (find_class dt ct)) as [[t c]|], w; reflexivity.
  - destruct (load w p) as [x|] eqn:L; [|discriminate]. intros E. injection E as <-. unfold dyn_read, dyn_with, meant. destruct p as [a|].
    + pose proof (load_some w a x L) as (n & v & u & _ & _ & ->). destruct (find_class dt ct) as [[t c]|].
      * cbn [class_names]. rewrite (load_as w a _ t c _ L). unfold as_class. destruct (class_is (t, c) _) eqn:Ci; [|reflexivity]. rewrite host_reads. cbn [o_val fst].
        destruct (r_read e hr t key v (wo_reader w)) as [[[b y] s1]| |]; reflexivity.
      * cbn [class_names bind]. rewrite (put_same w (Some a) _ L). destruct w; reflexivity.
    + injection L as <-. destruct (class_names (find_class dt ct)) as [[t c]|], w; reflexivity.
  - destruct (load w p) as [x|] eqn:L; [|discriminate]. destruct (load w p') as [y|] eqn:L'; [|discriminate]. intros E. injection E as <-. unfold dyn_copy, dyn_with, meant.
    destruct p' as [b|].
    + pose proof (load_some w b y L') as (n' & v' & u' & _ & _ & ->). destruct p as [a|].
      * pose proof (load_some w a x L) as (n & v & u & _ & _ & ->). destruct (find_class dt ct) as [[t c]|].
        -- cbn [class_names]. rewrite (load_as w a _ t c _ L). unfold as_class. destruct (class_is (t, c) _) eqn:Ci; [|reflexivity].
           rewrite (load_as w b _ t c _ L'). destruct (class_is (t, c) (Obj (u', cval_ctype v') v')) eqn:Ci'; reflexivity.
        -- cbn [class_names bind fst snd]. rewrite (put_same w (Some a) _ L). reflexivity.
      * injection L as <-. destruct (class_names (find_class dt ct)) as [[t c]|]; reflexivity.
    + injection L' as <-. cbn [bind fst snd]. rewrite (put_same w p x L). destruct p as [a|], (class_names (find_class dt ct)) as [[t c]|]; reflexivity.
  - destruct (load w p) as [x|] eqn:L; [|discriminate]. destruct (load w p') as [y|] eqn:L'; [|discriminate]. intros E. injection E as <-. unfold dyn_equals, dyn_with, meant.
    destruct p' as [b|].
    + pose proof (load_some w b y L') as (n' & v' & u' & _ & _ & ->). destruct p as [a|].
      * pose proof (load_some w a x L) as (n & v & u & _ & _ & ->). destruct (find_class dt ct) as [[t c]|]; [|reflexivity].
        cbn [class_names]. rewrite (load_as w a _ t c _ L). unfold as_class. destruct (class_is (t, c) _) eqn:Ci; [|reflexivity].
        rewrite (load_as w b _ t c _ L'). destruct (class_is (t, c) (Obj (u', cval_ctype v') v')) eqn:Ci'; [|reflexivity]. rewrite host_equal. reflexivity.
      * injection L as <-. destruct (class_names (find_class dt ct)) as [[t c]|]; reflexivity.
    + injection L' as <-. destruct p as [a|], (class_names (find_class dt ct)) as [[t c]|]; reflexivity.
Qed.
End Project.
Theorem project_runs n : 577 <= n -> exists text pg, dyn_source n isd_types = Some text /\
  parse_program [enum_text isd_types; container_enum_text] (comb_header isd_types) (comb_source isd_types) text = Some pg /\
  forall e raw key hw hr, raw_ok raw -> forall dt ct q w r fuel kc, project_call e key hw hr dt ct q w = Some r -> 577 < fuel ->
    run_program (host_dyn (w_all isd_types) (r_all isd_types) e raw key hw hr) pg fuel (function_name q) (arguments kc dt ct q) w = Some r.
Proof.
  intros Hn. destruct (generated isd_types n isd_dyn_proper Hn) as (tab & HL & E).
  eexists. exists (a_program isd_types tab). split; [exact E|]. split.
  - assert (HO : of_list isd_types tab) by (intros x i; apply (tab_entry isd_types tab HL) in i; exact (numbered_name isd_types _ _ (proj1 i))).
    apply GenDynFile.program_parses; [exact (GenDynFile.proper_names isd_types isd_dyn_proper)|]. intros x i. apply (GenDynFile.proper_names isd_types isd_dyn_proper). exact (HO x i).
  - intros e raw key hw hr RW dt ct q w r fuel kc P Hf.
    rewrite (calls_meant (host_dyn (w_all isd_types) (r_all isd_types) e raw key hw hr) isd_types tab fuel isd_dyn_proper (isd_declared _ _ _ _ _ _ _) HL Hf dt ct (class_names (find_class dt ct)) q w kc (isd_found dt ct)).
    apply project_meant; assumption.
Qed.
