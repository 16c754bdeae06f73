(** * TestThreads: the system test of thread_safe_map. Model of SystemTests/safe_thread_map_test.cpp. *)
From Verif Require Import Base StdSet ThreadMap.
Open Scope N_scope.

(** [rand() << 16 | pthis->index] (safe_thread_map_test.cpp:21). *)
Definition test_key (rand index : N) : N := N.lor (N.shiftl rand 16) index.
(** The calls of uint_string_map_test_thread (safe_thread_map_test.cpp:13-48): inserts the numbers with their text
    (lines 19-26), looks up some of them (lines 29-38), and erases all of them (lines 41-44). [text]: sprintf_s and the
    std::string made of it, any function here; [rands], [looks]: the results of rand() in the two loops, any lists here
    (in the source both have num_iters = 10000 elements). *)
Definition test_program {V : Type} (text : N -> V) (index : N) (rands looks : list N) : list (mop N V) :=
  let list := map (fun r => test_key r index) rands in
  map (fun k => MInsert k (text k)) list ++
  map (fun r => MFind (nth (N.to_nat (r mod len list)) list 0)) looks ++
  map MErase list.
(** The threads of safe_thread_map_test (safe_thread_map_test.cpp:64-71); thread number [t] has index [t]. *)
Definition test_threads {V : Type} (text : N -> V) (draws : list (list N * list N)) (t : nat) : list (mop N V) :=
  match nth_error draws t with Some (rands, looks) => test_program text (N.of_nat t) rands looks | None => [] end.
