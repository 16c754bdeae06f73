(** * GenDynFind: the lookup and the functions of ISD::dynamic_types, executed. Proofs. *)
From Coq Require Import Strings.String Strings.Ascii.
From Verif Require Import Base Bytes Types GenText CppText CppSem GenTextSpec GenLex GenRW CppFun GenRWEval GenDyn CppDyn GenTypes GenTypesSpec GenTypesFacts
  GenDynSpec GenDynAst GenDynParse GenDynFile GenDynCheck GenDynRun.
Local Open Scope string_scope.
Local Open Scope list_scope.
Local Open Scope nat_scope.

Definition rec (d k : N) : dv := URec "type_combo" [("data_type", UEnum "data_type_index" d); ("container_type", UEnum "container_type_index" k)].
Definition size_n : N := 577.
Section Loop.
Context {W R : Type} (h : dhost W R) (K : around W R) (fuel : nat) (tab : gtable string ctype) (w : world W R) (dt ct : N).
Context (HT : k_table K "_dynamicTypeClassHashTable" = Some (map slot_object tab)).
Context (HV : forall e, In (Some e) tab -> k_virtual K (obj_name (en_variant e) (en_container e)) "Type" [] w = oret (rec (en_dt e) (en_ct e), w)).
Context (HS : forall d k, k_same K "type_combo" (rec d k) (rec dt ct) w = oret ((dt =? d) && (ct =? k))%N%bool).
Definition env_at (i : N) : denv :=
  [("hashValue", LV false (Ct ["size_t"] []) ByValue (UNum i)); ("typeCombo", LV false tcombo ByValue (rec dt ct))].
Lemma slot_deval i : deval h K one_slot (env_at i, w)
  = match gslot tab i with Some (Some e) => oret (UObj (obj_name (en_variant e) (en_container e)), (env_at i, w))
    | Some None => oret (UNull, (env_at i, w)) | None => Some Undef end.
Proof.
  unfold one_slot, env_at, gslot. cbn. rewrite HT. cbn. rewrite nth_error_map. destruct (nth_error tab (N.to_nat i)) as [[e|]|]; reflexivity.
Qed.
Lemma cond_deval i : deval h K (DOp ONe one_slot DNull) (env_at i, w)
  = match gslot tab i with Some (Some e) => oret (UBool true, (env_at i, w)) | Some None => oret (UBool false, (env_at i, w)) | None => Some Undef end.
Proof.
  change (deval h K (DOp ONe one_slot DNull) (env_at i, w))
    with (obind (deval h K one_slot (env_at i, w)) (fun q => let '(v, s1) := q in obind (operate h K ONe v UNull s1) (fun x => oret (x, s1)))).
  rewrite slot_deval. destruct (gslot tab i) as [[e|]|]; reflexivity.
Qed.
Lemma same_cond (i : N) x y :
  deval h K (DOp OEq (DName ["type"]) (DName ["typeCombo"])) (("type", LV false tcombo ByValue (rec x y)) :: env_at i, w)
  = oret (UBool ((dt =? x) && (ct =? y))%N, (("type", LV false tcombo ByValue (rec x y)) :: env_at i, w)).
Proof.
  cbn. fold (rec x y). fold (rec dt ct). rewrite HS. reflexivity.
Qed.
Definition one_round (s1 : dstate) : O (option dv * dstate) :=
  obind (dexec h K fuel find_round s1) (fun q => oret (fst q, dleave (fst s1) (snd q))).
Lemma round_runs i e : gslot tab i = Some (Some e) -> (i < size_n)%N ->
  one_round (env_at i, w) =
  if ((en_dt e =? dt) && (en_ct e =? ct))%N%bool then oret (Some (UObj (obj_name (en_variant e) (en_container e))), (env_at i, w))
  else oret (None, (env_at (step_slot 577 i), w)).
Proof.
  intros G Hi. assert (Hin : In (Some e) tab) by (eapply nth_error_In; exact G).
  unfold one_round, find_round.
  assert (D : deval h K (DVirtual one_slot "Type" []) (env_at i, w) = oret (rec (en_dt e) (en_ct e), (env_at i, w))).
  { change (deval h K (DVirtual one_slot "Type" []) (env_at i, w)) with
      (obind (deval h K one_slot (env_at i, w)) (fun q => let '(v, s1) := q in match v with
        | UObj o => obind (k_virtual K o "Type" [] (snd s1)) (fun r => oret (fst r, (fst s1, snd r))) | UNull => Some Undef | _ => None end)).
    rewrite slot_deval, G. cbn [obind oret fst snd]. rewrite (HV e Hin). reflexivity. }
  cbn [dexec]. rewrite D. cbn [obind oret].
  change (convert_to K false tcombo ByValue (rec (en_dt e) (en_ct e))) with (Some (rec (en_dt e) (en_ct e))).
  change (lookup "type" (fst (env_at i, w))) with (@None lvar). cbn [obind oret fst snd]. rewrite same_cond. cbn [obind oret truth].
  rewrite (N.eqb_sym dt), (N.eqb_sym ct). destruct ((en_dt e =? dt) && (en_ct e =? ct))%N%bool.
  - assert (S2 : deval h K one_slot (("type", LV false tcombo ByValue (rec (en_dt e) (en_ct e))) :: env_at i, w)
      = oret (UObj (obj_name (en_variant e) (en_container e)), (("type", LV false tcombo ByValue (rec (en_dt e) (en_ct e))) :: env_at i, w))).
    { unfold one_slot, env_at. cbn. rewrite HT. cbn. rewrite nth_error_map. unfold gslot in G. rewrite G. reflexivity. }
    rewrite S2. reflexivity.
  - assert (Hm : ((i + 1) mod 2 ^ 64 = i + 1)%N) by (apply N.mod_small; unfold size_n in Hi; change (2 ^ 64)%N with 18446744073709551616%N; lia).
    cbn -[N.modulo N.pow N.add N.leb]. rewrite Hm. unfold step_slot. change (N.of_nat 577) with 577%N.
    destruct (577 <=? i + 1)%N; reflexivity.
Qed.
Lemma step_small i : (step_slot 577 i < size_n)%N.
Proof. unfold step_slot, size_n. change (N.of_nat 577) with 577%N. destruct (N.leb_spec 577 (i + 1)); lia. Qed.
Lemma probe_runs : forall n i r, gprobe 577 n tab i dt ct = Some r -> (i < size_n)%N -> exists j,
  rounds (deval h K (DOp ONe one_slot DNull)) one_round (S n) (env_at i, w)
  = oret (match r with Some e => Some (UObj (obj_name (en_variant e) (en_container e))) | None => None end, (env_at j, w)).
Proof.
  assert (RS : forall f i, rounds (deval h K (DOp ONe one_slot DNull)) one_round (S f) (env_at i, w)
    = match gslot tab i with
      | None => Some Undef | Some None => oret (None, (env_at i, w))
      | Some (Some e) => obind (one_round (env_at i, w)) (fun r => match r with (None, s2) => rounds (deval h K (DOp ONe one_slot DNull)) one_round f s2 | (Some v, s2) => oret (Some v, s2) end)
      end).
  { intros f i. cbn [rounds]. rewrite cond_deval. destruct (gslot tab i) as [[e|]|]; reflexivity. }
  induction n as [|n IH]; intros i r H Hi; rewrite RS; cbn [gprobe] in H; destruct (gslot tab i) as [[e|]|] eqn:G; try discriminate H.
  - rewrite (round_runs i e G Hi). destruct ((en_dt e =? dt) && (en_ct e =? ct))%N%bool; [|discriminate H]. injection H as <-. exists i. reflexivity.
  - injection H as <-. exists i. reflexivity.
  - rewrite (round_runs i e G Hi). destruct ((en_dt e =? dt) && (en_ct e =? ct))%N%bool.
    + injection H as <-. exists i. reflexivity.
    + cbn [obind oret]. apply IH; [exact H|apply step_small].
  - injection H as <-. exists i. reflexivity.
Qed.
End Loop.

Lemma dexec_seq {W R} (h : dhost W R) (K : around W R) fuel a b s : dexec h K fuel (TSeq a b) s
  = obind (dexec h K fuel a s) (fun p => match p with (None, s1) => dexec h K fuel b s1 | r => oret r end).
Proof. reflexivity. Qed.
(** A function of the file, called. *)
Definition enter {W R} (h : dhost W R) (K : around W R) (fuel : nat) (d : ddecl) (args : list dv) (w : world W R) : O (dv * world W R) :=
  match d with DFun c t p _ ps s => invoke h K fuel c t p ps s [] args w | _ => None end.
Definition class_of (r : option (string * ctype)) : dv := match r with Some (n, c) => UObj (obj_name n c) | None => UNull end.
Definition type_at (r : option (option (entry string ctype))) : option (string * ctype) :=
  match r with Some (Some e) => Some (en_variant e, en_container e) | _ => None end.
Lemma find_enters {W R} (h : dhost W R) (K : around W R) fuel tab w dt ct n r :
  k_table K "_dynamicTypeClassHashTable" = Some (map slot_object tab) ->
  (forall e, In (Some e) tab -> k_virtual K (obj_name (en_variant e) (en_container e)) "Type" [] w = oret (rec (en_dt e) (en_ct e), w)) ->
  (forall d k, k_same K "type_combo" (rec d k) (rec dt ct) w = oret ((dt =? d) && (ct =? k))%N%bool) ->
  k_class K "_dynamicTypeClass" = true -> fuel = S n -> gen_find 577 109 991 n tab dt ct = Some r ->
  enter h K fuel a_find [rec dt ct] w = oret (class_of (type_at (Some r)), w).
Proof.
  intros HT HV HS HC -> HF. unfold gen_find in HF.
  destruct (probe_runs h K (S n) tab w dt ct HT HV HS n _ r HF) as (j & E).
  { unfold size_n. apply (cpp_lt 577 109 991 dt ct). lia. }
  unfold enter, a_find, invoke.
  change (bind_params K [Par false tcombo ByValue "typeCombo"] [rec dt ct]) with (Some [("typeCombo", LV false tcombo ByValue (rec dt ct))]).
  set (cond := DOp ONe one_slot DNull) in *.
  match goal with |- context [TSeq (TWhile cond find_round) ?rest] => set (tl := rest) end.
  assert (X : dexec h K (S n) (TDecl false (Ct ["size_t"] []) ByValue "hashValue"
             (DOp OMod (DOp OAdd (DOp OMul (id_number "data_type") (DNum 109)) (DOp OMul (id_number "container_type") (DNum 991))) (DNum 577)))
             ([("typeCombo", LV false tcombo ByValue (rec dt ct))], w) = oret (None, (env_at dt ct (cpp_hash 577 109 991 dt ct), w))) by reflexivity.
  cbv iota beta. change ([("typeCombo", LV false tcombo ByValue (rec dt ct))] ++ []) with [("typeCombo", LV false tcombo ByValue (rec dt ct))].
  rewrite dexec_seq, X. cbn [obind oret]. cbv iota beta.
  rewrite dexec_seq.
  change (dexec h K (S n) (TWhile cond find_round)) with (rounds (deval h K cond) (one_round h K (S n)) (S n)).
  rewrite E. destruct r as [e|]; cbn [obind oret fst snd type_at class_of].
  - change (is_void (Ct ["_dynamicTypeClass"] []) ByPtr) with false. cbn [convert_to]. rewrite HC. reflexivity.
  - unfold tl. reflexivity.
Qed.
