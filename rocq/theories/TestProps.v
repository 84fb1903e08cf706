(** Property C132: the programs in test/ pass, whatever the data. *)
From Verif Require Import Base CMem Heap CharstrSpec Utf8Spec Base64Spec NormModel NormSpec AvlModel AvlSpec PriorqModel.
From Verif Require Import TestAvlModel TestMoreModel TestAvl TestAvlMain TestMore TestSpec TestPerfModel TestPerfSpec TestPerf.

(** test/avltest.c passes with any comparison function and any elements with different keys, and it
    leaves three empty trees behind. *)
Theorem C132_avltest : forall (call : AvlModel.comparator) cmp xs h,
  total_preorder (fun a b => call cmp a b 0) -> different (fun a b => call cmp a b 0) xs -> zlen xs < 2 ^ 60 ->
  exists h' t1 t2 t3, avltest call cmp xs h = Ok (tt, h') /\ NoDup [t1; t2; t3] /\
    (forall t, In t [t1; t2; t3] -> get h t = None /\ avl_history call cmp 0 h' t []) /\
    (forall x, ~ In x [t1; t2; t3] -> get h' x = get h x).
Proof. intros call cmp xs h. exact (avltest_ok call cmp h xs). Qed.
Print Assumptions C132_avltest.

(** test/priorq_test.c: the queue gives the elements in the order of the tree; all memory is freed. *)
Theorem C132_priorq_test : forall (call : AvlModel.comparator) cmp xs junk h,
  total_preorder (fun a b => call cmp a b 0) -> different (fun a b => call cmp a b 0) xs -> zlen xs < 2 ^ 60 ->
  exists h', test_correctness call cmp junk xs h = Ok (true, h') /\ forall x, get h' x = get h x.
Proof. intros call cmp xs junk h. exact (test_correctness_ok call cmp h junk xs). Qed.
Print Assumptions C132_priorq_test.

(** test/priorq_perf.c: whatever the keys, as long as they differ, all three parts end, and nothing has
    changed but the locators that the elements note. The parts with queues do so for equal keys as well. *)
Theorem C132_priorq_perf : forall K junk h elements, prepared K h elements -> different_keys K h elements -> zlen elements < 2 ^ 60 ->
  exists h', test_performance K junk elements h = Ok (tt, h') /\ as_before K elements h h'.
Proof. exact test_performance_ok. Qed.
Print Assumptions C132_priorq_perf.
Theorem C132_priorq_perf_queues : forall K junk h elements, prepared K h elements -> zlen elements < 2 ^ 60 ->
  (exists h', measure_dequeue K junk elements h = Ok (tt, h') /\ as_before K elements h h') /\
  (exists h', measure_remove K junk elements h = Ok (tt, h') /\ as_before K elements h h').
Proof. exact perf_queues_ok. Qed.
Print Assumptions C132_priorq_perf_queues.

(** test/intset_test.c passes with any elements and any size an int can count. *)
Theorem C132_intset_test : forall elements, zlen elements <= INT_MAX -> intset_test elements = Ok tt.
Proof. exact intset_test_ok. Qed.
Print Assumptions C132_intset_test.

(** test/base64_test.c passes with any strings and their Base64 encodings in the table. *)
Theorem C132_base64_test : forall ds, Forall (fun d => text d /\ zlen (base64 43 47 d) <= INT_MAX) ds ->
  base64_test (map row ds) = Ok true.
Proof. exact base64_test_ok. Qed.
Print Assumptions C132_base64_test.

(** test/charstr_normalization_test.c accepts a line exactly if its columns are in the relations of
    NormalizationTest.txt: c3 is the NFD and c2 the NFC of c1, c2 and c3, and c5 is the NFD and c4 the
    NFC of c4 and c5. *)
Theorem C132_normalization_test : forall l c1 c2 c3 c4 c5, sound l ->
  Forall (fun c => codepoints c /\ fits c) [c1; c2; c3; c4; c5] ->
  exists x, test_normalization l (cstring c1) (cstring c2) (cstring c3) (cstring c4) (cstring c5) = Ok x /\
    (x = true <-> (forall c, In c [c1; c2; c3] -> nfd c c3 /\ nfc c c2) /\ (forall c, In c [c4; c5] -> nfd c c5 /\ nfc c c4)).
Proof. exact test_normalization_ok. Qed.
Print Assumptions C132_normalization_test.

(** Keys are numbers, compared as such. *)
Definition number_cmp : AvlModel.comparator := fun _ a b _ => a - b.
Lemma number_total cmp : total_preorder (fun a b => number_cmp cmp a b 0).
Proof. unfold number_cmp. split; intros; lia. Qed.
Example C132_keys_example : different (fun a b => number_cmp 5 a b 0) [7; 3; 9; 1] /\
  match avltest number_cmp 5 [7; 3; 9; 1] heap0 with Ok (tt, h) => length (mem h) = 3%nat | _ => False end /\
  match avltest number_cmp 5 [7; 3; 7] heap0 with Abort => True | _ => False end /\
  match test_correctness number_cmp 5 (fun _ => 0) [7; 3; 9; 1] heap0 with Ok (true, h) => mem h = [] | _ => False end.
Proof.
  split; [repeat (constructor; [repeat (constructor; [unfold number_cmp; lia|]); constructor|]); constructor|].
  split; [vm_compute; reflexivity|]. split; [vm_compute; exact I|]. vm_compute. reflexivity.
Qed.

(** The rows of test/base64_test.c:10-14 *)
Example C132_rows_example :
  base64_test (map row [[46]; []]) = Ok true /\ snd (row [46]) = [76; 103; 61; 61; 0] /\
  base64_test [([46; 0], [76; 104; 61; 61; 0])] = Ok false.
Proof. vm_compute. repeat split. Qed.

Example C132_intset_example : intset_test [true; false; true] = Ok tt.
Proof. vm_compute. reflexivity. Qed.

(** 1E0A;1E0A;0044 0307;1E0A;0044 0307; is a line of NormalizationTest.txt. *)
Example C132_line_example :
  (forall c, In c [[0x1E0A]; [0x1E0A]; [0x44; 0x307]] -> nfd c [0x44; 0x307] /\ nfc c [0x1E0A]) /\
  Forall (fun c => codepoints c /\ fits c) [[0x1E0A]; [0x1E0A]; [0x44; 0x307]; [0x1E0A]; [0x44; 0x307]].
Proof.
  assert (D : forall c, In c [[0x1E0A]; [0x1E0A]; [0x44; 0x307]] -> nfd c [0x44; 0x307]).
  { intros c [<-|[<-|[<-|[]]]]; apply NormOrder.nfd_iff; vm_compute; reflexivity. }
  assert (C : forall c, In c [[0x1E0A]; [0x1E0A]; [0x44; 0x307]] -> nfc c [0x1E0A]).
  { intros c I. exists [0x44; 0x307]. split; [exact (D c I)|]. apply NormOrder.compose_composed. vm_compute. reflexivity. }
  split; [intros c I; auto|].
  assert (F : forall c, In c [[0x1E0A]; [0x1E0A]; [0x44; 0x307]] -> fits c).
  { intros c I. split; [exists [0x44; 0x307]; split; [exact (D c I)|reflexivity]|]. intros (t & N & pre & x & mid & post & E & _ & _ & L).
    destruct (NormMain.nfc_exists c) as (u & _ & U). assert (T : t = [0x1E0A]) by (rewrite (U t N); symmetry; apply U; exact (C c I)). rewrite T in E.
    apply (f_equal zlen) in E. rewrite !zlen_app, !zlen_cons, !zlen_app in E. pose proof (zlen_nonneg pre). pose proof (zlen_nonneg post). change (zlen (@nil Z)) with 0 in E. lia. }
  repeat (constructor; [split; [split; [repeat (constructor; [unfold scalar; lia|]); constructor|cbn; lia]|apply F; cbn; tauto]|]). constructor.
Qed.

(** Three elements with keys of two bytes. With equal keys, test/priorq_perf.c loses the element of the
    tree that is replaced. *)
Definition perf_heap (last : Z) : heap := mk_heap [(1, CSlots [5; 9; 0]); (2, CSlots [5; 7; 0]); (3, CSlots [last; 200; 0])] (fun n => 100 + Z.of_nat n) 0.
Example C132_perf_example :
  prepared 2 (perf_heap 4) [1; 2; 3] /\ different_keys 2 (perf_heap 4) [1; 2; 3] /\
  match test_performance 2 (fun _ => 7) [1; 2; 3] (perf_heap 4) with Ok (_, h) => map (get h) [100; 101; 102; 103; 104] = [None; None; None; None; None] | _ => False end.
Proof.
  split; [|split].
  - split; [repeat constructor; cbn; intuition lia|]. intros a [<-|[<-|[<-|[]]]]; [exists [5; 9]|exists [5; 7]|exists [4; 200]]; (split; [reflexivity|exists 0; reflexivity]).
  - intros a b key Ia Ib (L & loc & E) (_ & loc' & E'). destruct key as [|k1 [|k2 [|k3 r]]]; try discriminate.
    destruct Ia as [<-|[<-|[<-|[]]]]; vm_compute in E; injection E as <- <- _; destruct Ib as [<-|[<-|[<-|[]]]]; vm_compute in E'; first [reflexivity|discriminate].
  - vm_compute. reflexivity.
Qed.
Definition equal_heap : heap := mk_heap [(1, CSlots [5; 9; 0]); (2, CSlots [5; 9; 0])] (fun n => 100 + Z.of_nat n) 0.
Example C132_perf_equal_keys :
  prepared 2 equal_heap [1; 2] /\ match measure_avl 2 [1; 2] equal_heap with Ok (_, h) => get h 101 <> None | _ => False end.
Proof.
  split; [|vm_compute; discriminate].
  split; [repeat constructor; cbn; intuition lia|]. intros a [<-|[<-|[]]]; exists [5; 9]; (split; [reflexivity|exists 0; reflexivity]).
Qed.
