(** The cost of charstr_unicode_decompose. *)
From Verif Require Import Base CMem CharstrModel CharstrSpec CharstrProofs Utf8Model Utf8Spec Utf8Proofs.
From Verif Require Import UcdData NormModel NormSpec NormTables NormFacts NormOrder NormBytes NormDecompose Ptree NormCostModel Stack.
From Coq Require Import ZifyBool ZifyNat.

#[local] Opaque decomposition_data ccc_data exclusion_data nfc_qc_data nfd_qc_data.

(** * The results are the same *)

Definition strip {A} (r : res (A * Z)) : res A := x <- r ;; Ok (fst x).

Lemma ok3 {A B} (a a' : A) (b b' : B) (k k' : Z) : Ok (a, b, k) = Ok (a', b', k') -> k = k'.
Proof. congruence. Qed.
Lemma for_each_same f g dp : forall b s, (forall d b s, strip (f d b s) = g d b s) -> strip (for_each_cost f dp b s) = for_each g dp b s.
Proof.
  induction dp as [|d dp IH]; intros b s H; cbn [for_each_cost for_each]; destruct s as [s|]; try reflexivity.
  destruct (truth d); [|reflexivity]. rewrite <- H. destruct (f d b (Some s)) as [[[b1 s1] k]| | |]; try reflexivity.
  unfold strip at 2. cbn [bind fst]. rewrite <- IH by exact H. destruct (for_each_cost f dp b1 s1) as [[[b2 s2] k']| | |]; reflexivity.
Qed.
Lemma decompose_fully_same n : forall cp b s e, strip (decompose_fully_cost n cp b s e) = decompose_fully n cp b s e.
Proof.
  induction n as [|n IH]; intros cp b s e; [reflexivity|]. cbn [decompose_fully_cost decompose_fully].
  destruct (_charstr_unicode_decomposition cp) as [dp|].
  - rewrite <- (for_each_same (fun d b s => decompose_fully_cost n d b s e)) by (intros; apply IH).
    destruct (for_each_cost _ dp b s) as [[[b1 s1] k]| | |]; reflexivity.
  - destruct (decompose_hangul cp b s e) as [[b1 [h|]]| | |]; try reflexivity. cbn [bind].
    destruct (charstr_encode_utf8_codepoint cp b1 s e) as [[b2 s2]| | |]; reflexivity.
Qed.
Lemma sift_erase n : forall b t s a e c, strip (sift_cost n b t s a e c) = sift n b t s a e c.
Proof.
  induction n as [|n IH]; intros b t s a e c; [reflexivity|]. cbn [sift_cost sift].
  destruct (decode_at b t e) as [[at_ cp]| | |]; try reflexivity. cbn [bind]. destruct (_ >? c).
  - cbv zeta. destruct (slice b s (a - s)) as [x| | |]; try reflexivity. cbn [bind]. destruct (slice b t (s - t)) as [y| | |]; try reflexivity. cbn [bind].
    destruct (blit b _ y) as [b1| | |]; try reflexivity. cbn [bind]. destruct (blit b1 t x); reflexivity.
  - rewrite <- IH. destruct (sift_cost n b at_ s a e c) as [[b1 k]| | |]; reflexivity.
Qed.
Lemma sort_erase n : forall b begin s e l, strip (sort_loop_cost n b begin s e l) = sort_loop n b begin s e l.
Proof.
  induction n as [|n IH]; intros b begin s e l; [reflexivity|]. cbn [sort_loop_cost sort_loop]. destruct (s =? e); [reflexivity|].
  destruct (decode_at b s e) as [[a cp]| | |]; try reflexivity. cbn [bind]. destruct (_ =? 0); [|destruct (_ >=? l)].
  - rewrite <- IH. destruct (sort_loop_cost n b a a e 0) as [[b1 k]| | |]; reflexivity.
  - rewrite <- IH. destruct (sort_loop_cost n b begin a e _) as [[b1 k]| | |]; reflexivity.
  - rewrite <- sift_erase. destruct (sift_cost _ b begin s a e _) as [[b1 k]| | |]; try reflexivity. unfold strip at 2. cbn [bind fst].
    rewrite <- IH. destruct (sort_loop_cost n b1 begin a e l) as [[b2 k']| | |]; reflexivity.
Qed.
Lemma loop_erase n : forall s e b q oe, strip (decompose_loop_cost n s e b q oe) = decompose_loop n s e b q oe.
Proof.
  induction n as [|n IH]; intros s e b q oe; [reflexivity|]. cbn [decompose_loop_cost decompose_loop]. destruct (at_end s e); [reflexivity|].
  destruct (cur s) as [c| | |]; try reflexivity. cbn [bind]. destruct (truth c); [|reflexivity].
  destruct (charstr_decode_utf8_codepoint (Some s) e) as [[[s1 cp]|]| | |]; try reflexivity. cbn [bind].
  rewrite <- decompose_fully_same. destruct (decompose_fully_cost recursion_depth cp b (Some q) (Some oe)) as [[[b1 [q1|]] k]| | |]; try reflexivity.
  unfold strip at 2. cbn [bind fst]. rewrite <- IH. destruct (decompose_loop_cost n s1 e b1 q1 oe) as [[[b2 r2] k']| | |]; reflexivity.
Qed.
Lemma decompose_erase s e b output oe : strip (charstr_unicode_decompose_cost s e b output oe) = charstr_unicode_decompose s e b output oe.
Proof.
  unfold charstr_unicode_decompose_cost, charstr_unicode_decompose. rewrite <- loop_erase.
  destruct (decompose_loop_cost _ s e b output oe) as [[[b1 [q|x]] k]| | |]; try reflexivity. unfold strip at 2. cbn [bind fst].
  destruct (q =? oe); [reflexivity|]. destruct (wr b1 q 0) as [b2| | |]; try reflexivity. cbn [bind].
  unfold sort_combining_characters_cost, sort_combining_characters. rewrite <- sort_erase.
  destruct (sort_loop_cost _ b2 output output q 0) as [[b3 k']| | |]; reflexivity.
Qed.

(** * The cost of sorting *)

Fixpoint sift_work (c : Z) (run : list Z) : Z :=
  match run with
  | [] => 0
  | x :: run => if ccc x >? ccc c then 1 + width c + total (x :: run) + width c else 1 + sift_work c run
  end.
Fixpoint work (rest run : list Z) (last : Z) : Z :=
  match rest with
  | [] => 0
  | c :: rest =>
      if ccc c =? 0 then 1 + work rest [] 0
      else if ccc c >=? last then 1 + work rest (run ++ [c]) (ccc c)
      else 1 + sift_work c run + work rest (ins c run) last
  end.

Lemma rotate_cost A x y R t s n (k : Z) : t = zlen A -> s = zlen A + zlen x -> n = zlen y ->
  ('snippet <- slice (A ++ x ++ y ++ R) s n ;;
   'moved <- slice (A ++ x ++ y ++ R) t (s - t) ;;
   'b <- blit (A ++ x ++ y ++ R) (t + n) moved ;; 'b <- blit b t snippet ;; Ok (b, k)) = Ok (A ++ y ++ x ++ R, k).
Proof.
  intros E1 E2 E3. pose proof (rotate A x y R t s n E1 E2 E3) as H.
  destruct (slice (A ++ x ++ y ++ R) s n) as [u| | |]; try discriminate. cbn [bind] in *.
  destruct (slice (A ++ x ++ y ++ R) t (s - t)) as [v| | |]; try discriminate. cbn [bind] in *.
  destruct (blit _ (t + n) v) as [w| | |]; try discriminate. cbn [bind] in *. rewrite H. reflexivity.
Qed.
Lemma sift_cost_ok run : forall fuel A c R post, (length run < fuel)%nat -> Forall scalar run -> scalar c -> bytes R ->
  (exists x, In x run /\ ccc x > ccc c) ->
  sift_cost fuel (A ++ encs run ++ utf8 c ++ R ++ post) (zlen A) (zlen A + total run) (zlen A + total run + width c)
    (zlen A + total run + width c + zlen R) (ccc c) = Ok (A ++ encs (ins c run) ++ R ++ post, sift_work c run).
Proof.
  induction run as [|x run IH]; intros fuel A c R post F S Sc B (y & I & G); [destruct I|]. destruct fuel as [|fuel]; [lia|].
  inversion_clear S as [|? ? Sx Sr]. cbn [sift_cost sift_work]. change (total (x :: run)) with (width x + total run). rewrite encs_cons.
  pose proof (encs_zlen run Sr) as Lr. pose proof (utf8_zlen c Sc) as Lc. pose proof (utf8_zlen x Sx) as Lx.
  replace (A ++ (utf8 x ++ encs run) ++ utf8 c ++ R ++ post) with (A ++ utf8 x ++ (encs run ++ utf8 c ++ R) ++ post) by (rewrite <- !app_assoc; reflexivity).
  rewrite decode_at_ok; [|exact Sx| |rewrite !zlen_app; lia].
  2:{ apply bytes_app. split; [apply encs_bytes; exact Sr|]. apply bytes_app. split; [apply scalar_bytes; exact Sc|exact B]. }
  cbn [bind]. cbn [ins]. destruct (ccc x >? ccc c) eqn:E.
  - replace (A ++ utf8 x ++ (encs run ++ utf8 c ++ R) ++ post) with (A ++ (utf8 x ++ encs run) ++ utf8 c ++ R ++ post) by (rewrite <- !app_assoc; reflexivity).
    cbv zeta. rewrite (rotate_cost A (utf8 x ++ encs run) (utf8 c) (R ++ post)); [|reflexivity|rewrite zlen_app; lia|lia].
    rewrite !encs_cons, <- !app_assoc. f_equal. f_equal. lia.
  - replace (A ++ utf8 x ++ (encs run ++ utf8 c ++ R) ++ post) with ((A ++ utf8 x) ++ encs run ++ utf8 c ++ R ++ post) by (rewrite <- !app_assoc; reflexivity).
    replace (zlen A + width x) with (zlen (A ++ utf8 x)) by (rewrite zlen_app; lia).
    replace (zlen A + (width x + total run)) with (zlen (A ++ utf8 x) + total run) by (rewrite zlen_app; lia).
    rewrite IH; [|cbn in F; lia|exact Sr|exact Sc|exact B|].
    + rewrite encs_cons, <- !app_assoc. reflexivity.
    + destruct I as [->|I]; [lia|]. exists y. auto.
Qed.
Lemma sort_loop_cost_ok rest : forall fuel A pre run post last, (length rest < fuel)%nat -> Forall scalar pre -> Forall scalar run -> Forall scalar rest ->
  0 <= last -> (forall x, In x run -> ccc x <= last) -> (last <> 0 -> exists x, In x run /\ ccc x = last) ->
  sort_loop_cost fuel (A ++ encs pre ++ encs run ++ encs rest ++ post) (zlen A + total pre) (zlen A + total pre + total run)
    (zlen A + total pre + total run + total rest) last = Ok (A ++ encs (oflat (fold_left ostep rest (pre, run))) ++ post, work rest run last).
Proof.
  induction rest as [|c rest IH]; intros fuel A pre run post last F Sp Sr S L M X; (destruct fuel as [|fuel]; [lia|]); cbn [sort_loop_cost work].
  - change (total []) with 0. replace (_ =? _) with true by lia. unfold oflat. cbn [fold_left fst snd]. rewrite encs_app, <- app_assoc. reflexivity.
  - inversion_clear S as [|? ? Sc Ss]. change (total (c :: rest)) with (width c + total rest). pose proof (width_pos c). pose proof (total_nonneg rest).
    replace (_ =? _) with false by lia. pose proof (encs_zlen _ Sp) as Lp. pose proof (encs_zlen _ Sr) as Lr. pose proof (encs_zlen _ Ss) as Ls. pose proof (utf8_zlen c Sc) as Lc.
    rewrite encs_cons.
    replace (A ++ encs pre ++ encs run ++ (utf8 c ++ encs rest) ++ post) with ((A ++ encs pre ++ encs run) ++ utf8 c ++ encs rest ++ post) by (rewrite <- !app_assoc; reflexivity).
    replace (zlen A + total pre + total run) with (zlen (A ++ encs pre ++ encs run)) by (rewrite !zlen_app; lia).
    rewrite decode_at_ok; [|exact Sc|apply encs_bytes; exact Ss|lia]. cbn [bind].
    cbn [fold_left ostep]. pose proof (ccc_nonneg c). destruct (ccc c =? 0) eqn:E.
    + replace ((A ++ encs pre ++ encs run) ++ utf8 c ++ encs rest ++ post) with (A ++ encs (pre ++ run ++ [c]) ++ encs [] ++ encs rest ++ post)
        by (rewrite !encs_app, encs_cons, <- !app_assoc; reflexivity).
      assert (T : total (pre ++ run ++ [c]) = total pre + total run + width c).
      { rewrite !total_app. change (total [c]) with (width c + 0). lia. }
      specialize (IH fuel A (pre ++ run ++ [c]) [] post 0). change (total []) with 0 in IH. rewrite T in IH.
      rewrite !zlen_app, Lp, Lr. replace (zlen A + (total pre + total run) + width c) with (zlen A + (total pre + total run + width c)) by lia.
      replace (zlen A + (total pre + total run) + (width c + total rest)) with (zlen A + (total pre + total run + width c) + 0 + total rest) by lia.
      rewrite <- (Z.add_0_r (zlen A + (total pre + total run + width c))) at 2. rewrite IH; [reflexivity| | | | | | |]; try assumption; try lia.
      * cbn in F; lia.
      * apply Forall_app. split; [exact Sp|]. apply Forall_app. split; [exact Sr|]. constructor; [exact Sc|constructor].
      * constructor.
      * intros x [].
    + destruct (ccc c >=? last) eqn:G.
      * rewrite ins_last by (intros x I; specialize (M x I); lia).
        replace ((A ++ encs pre ++ encs run) ++ utf8 c ++ encs rest ++ post) with (A ++ encs pre ++ encs (run ++ [c]) ++ encs rest ++ post)
          by (rewrite !encs_app, encs_cons, <- !app_assoc; reflexivity).
        assert (T : total (run ++ [c]) = total run + width c). { rewrite total_app. change (total [c]) with (width c + 0). lia. }
        specialize (IH fuel A pre (run ++ [c]) post (ccc c)). rewrite T in IH. rewrite !zlen_app, Lp, Lr.
        replace (zlen A + (total pre + total run) + width c) with (zlen A + total pre + (total run + width c)) by lia.
        replace (zlen A + (total pre + total run) + (width c + total rest)) with (zlen A + total pre + (total run + width c) + total rest) by lia.
        rewrite IH; [reflexivity| | | | | | |]; try assumption; try lia.
        -- cbn in F; lia.
        -- apply Forall_app. split; [exact Sr|]. constructor; [exact Sc|constructor].
        -- intros x I. apply in_app_or in I as [I|[->|[]]]; [specialize (M x I); lia|lia].
        -- intros _. exists c. split; [apply in_or_app; right; left; reflexivity|reflexivity].
      * replace ((A ++ encs pre ++ encs run) ++ utf8 c ++ encs rest ++ post) with ((A ++ encs pre) ++ encs run ++ utf8 c ++ encs rest ++ post) by (rewrite <- !app_assoc; reflexivity).
        replace (zlen A + total pre) with (zlen (A ++ encs pre)) by (rewrite zlen_app; lia).
        replace (zlen (A ++ encs pre ++ encs run)) with (zlen (A ++ encs pre) + total run) by (rewrite !zlen_app; lia).
        replace (zlen (A ++ encs pre) + total run + (width c + total rest)) with (zlen (A ++ encs pre) + total run + width c + zlen (encs rest)) by lia.
        rewrite sift_cost_ok; try assumption.
        -- cbn [bind]. specialize (IH fuel A pre (ins c run) post last). rewrite ins_total in IH. rewrite zlen_app, Lp, Ls.
           replace ((A ++ encs pre) ++ encs (ins c run) ++ encs rest ++ post) with (A ++ encs pre ++ encs (ins c run) ++ encs rest ++ post) by (rewrite <- app_assoc; reflexivity).
           replace (zlen A + total pre + total run + width c) with (zlen A + total pre + (width c + total run)) by lia.
           rewrite IH; [reflexivity| | | | | | |]; try assumption.
           ++ cbn in F; lia.
           ++ apply ins_forall; assumption.
           ++ intros x I. apply ins_in in I as [->|I]; [lia|auto].
           ++ intros N. destruct (X N) as (x & I & Ex). exists x. split; [apply ins_in; right; exact I|exact Ex].
        -- pose proof (encs_length run Sr). rewrite !app_length. lia.
        -- apply encs_bytes. exact Ss.
        -- destruct (X ltac:(lia)) as (x & I & Ex). exists x. split; [exact I|lia].
Qed.
Lemma sort_cost_ok A cps post : Forall scalar cps ->
  sort_combining_characters_cost (A ++ encs cps ++ post) (zlen A) (zlen A + total cps) = Ok (A ++ encs (osort cps) ++ post, work cps [] 0).
Proof.
  intros S. unfold sort_combining_characters_cost. pose proof (sort_loop_cost_ok cps (Datatypes.S (length (A ++ encs cps ++ post))) A [] [] post 0) as H.
  change (total []) with 0 in H. rewrite !Z.add_0_r in H. apply H; auto; try lia.
  - pose proof (encs_length cps S). rewrite !app_length. lia.
  - intros x [].
Qed.

(** At most quadratic *)
Lemma width_max c : width c <= 4.
Proof. unfold width. repeat destruct (_ <? _); lia. Qed.
Lemma sift_work_most c run : 0 <= sift_work c run <= 2 * total run + 9.
Proof.
  induction run as [|x run IH]; cbn [sift_work]; [cbn; lia|]. change (total (x :: run)) with (width x + total run).
  pose proof (width_pos x). pose proof (width_pos c). pose proof (width_max c). pose proof (total_nonneg run). destruct (_ >? _); lia.
Qed.
Lemma work_most rest : forall run last, 0 <= work rest run last <= total rest * (2 * (total run + total rest) + 10).
Proof.
  induction rest as [|c rest IH]; intros run last; [cbn; lia|]. cbn [work]. change (total (c :: rest)) with (width c + total rest).
  pose proof (width_pos c). pose proof (total_nonneg rest). pose proof (total_nonneg run). destruct (_ =? 0); [|destruct (_ >=? last)].
  - specialize (IH [] 0). change (total []) with 0 in IH. nia.
  - specialize (IH (run ++ [c]) (ccc c)). rewrite total_app in IH. change (total [c]) with (width c + 0) in IH. nia.
  - specialize (IH (ins c run) last). rewrite ins_total in IH. pose proof (sift_work_most c run). nia.
Qed.

(** Quadratic for some strings *)
Lemma sift_work_pass c run x rest : Forall (fun y => ccc y <= ccc c) run -> ccc x > ccc c -> sift_work c (run ++ x :: rest) >= total (x :: rest).
Proof.
  induction 1 as [|y run L _ IH]; intros G; cbn [app sift_work].
  - replace (ccc x >? ccc c) with true by lia. pose proof (width_pos c). lia.
  - replace (ccc y >? ccc c) with false by lia. specialize (IH G). lia.
Qed.
Lemma ins_pass c run x rest : Forall (fun y => ccc y <= ccc c) run -> ccc x > ccc c -> ins c (run ++ x :: rest) = (run ++ [c]) ++ x :: rest.
Proof.
  induction 1 as [|y run L _ IH]; intros G; cbn [app ins].
  - replace (ccc x >? ccc c) with true by lia. reflexivity.
  - replace (ccc y >? ccc c) with false by lia. rewrite (IH G). reflexivity.
Qed.
Lemma work_second c x rest : 0 < ccc c -> ccc x > ccc c -> forall m run, Forall (fun y => ccc y <= ccc c) run ->
  work (repeat c m) (run ++ x :: rest) (ccc x) >= Z.of_nat m * total (x :: rest).
Proof.
  intros P G. induction m as [|m IH]; intros run F; [cbn [repeat work]; lia|]. cbn [repeat work].
  replace (ccc c =? 0) with false by lia. replace (ccc c >=? ccc x) with false by lia. rewrite ins_pass by assumption.
  pose proof (sift_work_pass c run x rest F G). assert (F' : Forall (fun y => ccc y <= ccc c) (run ++ [c])).
  { apply Forall_app. split; [exact F|]. constructor; [lia|constructor]. }
  specialize (IH _ F'). lia.
Qed.
Lemma work_first x cs : 0 < ccc x -> forall n run last, 0 <= last <= ccc x ->
  work (repeat x (S n) ++ cs) run last >= work cs (run ++ repeat x (S n)) (ccc x).
Proof.
  intros P. induction n as [|n IH]; intros run last L.
  - cbn [repeat app work]. replace (ccc x =? 0) with false by lia. replace (ccc x >=? last) with true by lia. lia.
  - change (repeat x (S (S n)) ++ cs) with (x :: (repeat x (S n) ++ cs)). cbn [work].
    replace (ccc x =? 0) with false by lia. replace (ccc x >=? last) with true by lia.
    specialize (IH (run ++ [x]) (ccc x) ltac:(lia)). rewrite <- app_assoc in IH. cbn [app] in IH.
    change (x :: repeat x (S n)) with (repeat x (S (S n))) in IH. lia.
Qed.
Lemma total_repeat x n : total (repeat x n) = Z.of_nat n * width x.
Proof. induction n as [|n IH]; [cbn; lia|]. cbn [repeat]. change (total (x :: repeat x n)) with (width x + total (repeat x n)). lia. Qed.

Definition hard (n : nat) : list Z := 0x61 :: repeat 0x301 n ++ repeat 0x323 n.
Lemma ccc_values : ccc 0x61 = 0 /\ ccc 0x301 = 230 /\ ccc 0x323 = 220.
Proof. vm_compute. auto. Qed.
Lemma hard_work n : work (hard n) [] 0 >= 2 * Z.of_nat n * Z.of_nat n.
Proof.
  destruct ccc_values as (C1 & C2 & C3). destruct n as [|n]; [pose proof (work_most (hard 0) [] 0); lia|]. unfold hard. cbn [work]. rewrite C1. change (0 =? 0) with true. cbv iota.
  pose proof (work_first 0x301 (repeat 0x323 (S n)) ltac:(lia) n [] 0 ltac:(lia)) as H1.
  pose proof (work_second 0x323 0x301 (repeat 0x301 n) ltac:(lia) ltac:(lia) (S n) [] ltac:(constructor)) as H2.
  cbn [app] in H1, H2. change (0x301 :: repeat 0x301 n) with (repeat 0x301 (S n)) in H2. rewrite total_repeat in H2. change (width 0x301) with 2 in H2. lia.
Qed.

(** * The whole *)

Fixpoint nodes (n : nat) (cp : Z) : Z :=
  match n with
  | O => 0
  | S n => match switch decomposition_data cp with None => 1 | Some d => 1 + fold_right (fun c k => nodes n c + k) 0 d end
  end.
Fixpoint nodes_t (n : nat) (cp : Z) : Z :=
  match n with
  | O => 0
  | S n => match zget cp decomposition_tree with None => 1 | Some d => 1 + fold_right (fun c k => nodes_t n c + k) 0 d end
  end.
Lemma nodes_t_ok n : forall cp, nodes_t n cp = nodes n cp.
Proof.
  induction n as [|n IH]; intros cp; [reflexivity|]. cbn [nodes_t nodes]. unfold decomposition_tree.
  rewrite <- (switch_zget _ _ decomposition_keys). destruct (switch _ cp) as [d|]; [|reflexivity]. f_equal.
  induction d as [|c d IHd]; [reflexivity|]. cbn [fold_right]. rewrite IH, IHd. reflexivity.
Qed.
Lemma nodes_check : forallb (fun '(k, d) => 1 + fold_right (fun c k => nodes_t 4 c + k) 0 d <=? 7) decomposition_data = true.
Proof. vm_compute. reflexivity. Qed.
Lemma nodes_most cp : nodes recursion_depth cp <= 7.
Proof.
  change (nodes recursion_depth cp) with (match switch decomposition_data cp with None => 1 | Some d => 1 + fold_right (fun c k => nodes 4 c + k) 0 d end).
  destruct (switch decomposition_data cp) as [d|] eqn:E; [|lia]. apply switch_in in E.
  pose proof (proj1 (forallb_forall _ _) nodes_check _ E) as H. cbn beta iota in H.
  assert (Q : forall l, fold_right (fun c k => nodes 4 c + k) 0 l = fold_right (fun c k => nodes_t 4 c + k) 0 l).
  { induction l as [|c l IH]; [reflexivity|]. cbn [fold_right]. rewrite IH, nodes_t_ok. reflexivity. }
  rewrite Q. lia.
Qed.
Lemma nodes_nonneg n : forall cp, 0 <= nodes n cp.
Proof.
  induction n as [|n IH]; intros cp; cbn [nodes]; [lia|]. destruct (switch decomposition_data cp) as [d|]; [|lia].
  assert (0 <= fold_right (fun c k => nodes n c + k) 0 d); [|lia]. induction d as [|c d IHd]; cbn [fold_right]; [lia|]. specialize (IH c). lia.
Qed.
Lemma fully_most n : forall cp b s e b' s' k, decompose_fully_cost n cp b s e = Ok (b', s', k) -> 0 <= k <= nodes n cp.
Proof.
  induction n as [|n IH]; intros cp b s e b' s' k; [discriminate|]. cbn [decompose_fully_cost nodes]. unfold _charstr_unicode_decomposition.
  destruct (switch decomposition_data cp) as [d|].
  - destruct (for_each_cost _ (d ++ [0]) b s) as [[[b1 s1] k1]| | |] eqn:E; try discriminate. cbn [bind]. intros R. apply ok3 in R as <-.
    assert (H : 0 <= k1 <= fold_right (fun c k => nodes n c + k) 0 d); [|lia]. revert b s b1 s1 k1 E.
    induction d as [|c d IHd]; intros b s b1 s1 k1; cbn [app for_each_cost fold_right]; (destruct s as [s|]; [|intros R; apply ok3 in R as <-]).
    + change (truth 0) with false. cbv iota. intros R. apply ok3 in R as <-. lia.
    + lia.
    + pose proof (nodes_nonneg n c). assert (N : 0 <= fold_right (fun c k => nodes n c + k) 0 d).
      { clear. induction d as [|c d IHd]; cbn [fold_right]; [lia|]. pose proof (nodes_nonneg n c). lia. }
      destruct (truth c); [|intros R; apply ok3 in R as <-; lia].
      destruct (decompose_fully_cost n c b (Some s) e) as [[[b2 s2] k2]| | |] eqn:E2; try discriminate. cbn [bind].
      destruct (for_each_cost _ (d ++ [0]) b2 s2) as [[[b3 s3] k3]| | |] eqn:E3; try discriminate. cbn [bind]. intros R. apply ok3 in R as <-.
      apply IH in E2. apply IHd in E3. lia.
    + pose proof (nodes_nonneg n c). assert (N : 0 <= fold_right (fun c k => nodes n c + k) 0 d); [|lia].
      clear. induction d as [|c d IHd]; cbn [fold_right]; [lia|]. pose proof (nodes_nonneg n c). lia.
  - destruct (decompose_hangul cp b s e) as [[b1 [h|]]| | |]; try discriminate; cbn [bind]; [intros R; apply ok3 in R as <-; lia|].
    destruct (charstr_encode_utf8_codepoint cp b1 s e) as [[b2 s2]| | |]; try discriminate. cbn [bind]. intros R. apply ok3 in R as <-. lia.
Qed.
Lemma loop_most s cps ok : scanned s cps ok -> forall q e, input s q e -> forall fuel b o oe b' r k,
  decompose_loop_cost fuel (s ++ q) e b o oe = Ok (b', r, k) -> 0 <= k <= 8 * zlen s.
Proof.
  induction 1 as [|c s N|bs cp s cps ok A H IH]; intros q e I fuel b o oe b' r k; (destruct fuel as [|fuel]; [discriminate|]); cbn [decompose_loop_cost].
  - cbn [app]. change (zlen (@nil Z)) with 0. destruct (head_nil _ _ I) as [->|[-> E]]; [|rewrite E; cbn [bind]; change (truth 0) with false; cbv iota];
      intros R; apply ok3 in R as <-; lia.
  - destruct (head_bad _ _ _ _ N I) as (-> & -> & Tc & ->). cbn [bind]. rewrite Tc. cbn [bind]. intros R. apply ok3 in R as <-.
    rewrite zlen_cons. pose proof (zlen_nonneg s). lia.
  - destruct (head_good _ _ _ _ _ A I) as (c & -> & -> & Tc & -> & I'). cbn [bind]. rewrite Tc. cbn [bind].
    pose proof (pattern_length _ _ (proj1 A)) as PL. pose proof (zlen_nonneg s). rewrite zlen_app. assert (1 <= zlen bs) by (unfold zlen; lia).
    destruct (decompose_fully_cost recursion_depth cp b (Some o) (Some oe)) as [[[b1 [q1|]] k1]| | |] eqn:D; try discriminate; cbn [bind];
      apply fully_most in D; pose proof (nodes_most cp).
    + destruct (decompose_loop_cost fuel (s ++ q) e b1 q1 oe) as [[[b2 r2] k2]| | |] eqn:D2; try discriminate. cbn [bind]. intros R. apply ok3 in R as <-.
      apply (IH q e I') in D2. lia.
    + intros R. apply ok3 in R as <-. lia.
Qed.
Lemma decompose_split s cps ok q e pre free post : scanned s cps ok -> input s q e ->
  exists b r k, charstr_unicode_decompose_cost (s ++ q) e (pre ++ free ++ post) (zlen pre) (zlen pre + zlen free) = Ok (b, r, k) /\
    match r with
    | inl n => exists k0 rs, Forall2 variant cps rs /\ n = zlen pre + total (concat rs) /\ 0 <= k0 <= 8 * zlen s /\ k = k0 + work (concat rs) [] 0
    | inr _ => 0 <= k <= 8 * zlen s
    end.
Proof.
  intros S I. destruct (decompose_loop_ok s cps ok S q e I (Datatypes.S (length (s ++ q))) pre free post) as (free1 & o & E & L & O); [rewrite app_length; lia|].
  unfold charstr_unicode_decompose_cost. rewrite <- loop_erase in E.
  destruct (decompose_loop_cost _ (s ++ q) e _ (zlen pre) _) as [[[b1 r1] k1]| | |] eqn:D; try discriminate. apply (loop_most s cps ok S q e I) in D.
  injection E as -> ->. cbn [bind]. destruct o as [n|err].
  - destruct O as (Ok' & rs & rest & V & -> & -> & R). assert (SR : Forall scalar (concat rs)).
    { pose proof (scanned_scalar _ _ _ S) as SC. clear - V SC. induction V as [|cp r cps rs V _ IH]; [constructor|]. inversion_clear SC. cbn. apply Forall_app.
      split; [eapply variant_scalar; eauto|auto]. }
    pose proof (encs_zlen _ SR) as LR. rewrite zlen_app in L. destruct rest as [|x rest].
    + replace (_ =? _) with true by (change (zlen (@nil Z)) with 0 in L; lia). eexists _, (inr EOVERFLOW), _. split; [reflexivity|]. exact D.
    + rewrite zlen_cons in L. pose proof (zlen_nonneg rest). replace (_ =? _) with false by lia.
      replace (pre ++ (encs (concat rs) ++ x :: rest) ++ post) with ((pre ++ encs (concat rs)) ++ x :: (rest ++ post)) by (rewrite <- !app_assoc; reflexivity).
      rewrite wr_app by (rewrite zlen_app; lia). cbn [bind].
      replace ((pre ++ encs (concat rs)) ++ 0 :: rest ++ post) with (pre ++ encs (concat rs) ++ (0 :: rest ++ post)) by (rewrite <- !app_assoc; reflexivity).
      rewrite sort_cost_ok by exact SR. cbn [bind]. eexists _, (inl (zlen pre + total (concat rs))), _. split; [reflexivity|].
      exists k1, rs. auto.
  - eexists _, (inr err), _. split; [reflexivity|]. exact D.
Qed.

Lemma variant_total cp r : scalar cp -> variant cp r -> total r <= 3 * width cp.
Proof.
  intros S [->|[_ ->]]; [apply fd_total; exact S|]. change (total [cp]) with (width cp + 0). pose proof (width_pos cp). lia.
Qed.
Lemma decompose_most s q e pre free post : input s q e ->
  exists b r k, charstr_unicode_decompose_cost (s ++ q) e (pre ++ free ++ post) (zlen pre) (zlen pre + zlen free) = Ok (b, r, k) /\
    0 <= k <= 18 * zlen s * zlen s + 38 * zlen s.
Proof.
  intros I. destruct (scanned_total s (text_bytes _ (proj1 I))) as (cps & ok & S).
  destruct (decompose_split s cps ok q e pre free post S I) as (b & r & k & E & H). exists b, r, k. split; [exact E|].
  pose proof (zlen_nonneg s). destruct r as [n|err]; [|nia]. destruct H as (k0 & rs & V & _ & K0 & ->).
  pose proof (work_most (concat rs) [] 0) as W. change (total []) with 0 in W. assert (T : total (concat rs) <= 3 * zlen s).
  { pose proof (scanned_width_strict _ _ _ S) as Y. assert (X : total (concat rs) <= 3 * total cps); [|destruct ok; lia].
    pose proof (scanned_scalar _ _ _ S) as SC. clear - V SC. induction V as [|cp r cps rs V _ IH]; [cbn; lia|]. inversion_clear SC as [|? ? Sc Ss].
    cbn [concat]. rewrite total_app. change (total (cp :: cps)) with (width cp + total cps). pose proof (variant_total _ _ Sc V). specialize (IH Ss). lia. }
  pose proof (total_nonneg (concat rs)). nia.
Qed.
Lemma plain_cps : Forall (fun c => scalar c /\ fd c = [c] /\ is_syllable c = false) [0x61; 0x301; 0x323].
Proof. repeat constructor; unfold scalar; try lia; vm_compute; reflexivity. Qed.
Lemma hard_plain n : Forall (fun c => scalar c /\ fd c = [c] /\ is_syllable c = false) (hard n).
Proof.
  pose proof plain_cps as P. inversion_clear P as [|? ? P1 P']. inversion_clear P' as [|? ? P2 P'']. inversion_clear P'' as [|? ? P3 _].
  unfold hard. constructor; [exact P1|]. apply Forall_app. split; (induction n as [|n IH]; [constructor|]; cbn [repeat]; constructor; assumption).
Qed.
Lemma hard_total n : total (hard n) = 4 * Z.of_nat n + 1.
Proof.
  unfold hard. change (total (0x61 :: repeat 0x301 n ++ repeat 0x323 n)) with (1 + total (repeat 0x301 n ++ repeat 0x323 n)).
  rewrite total_app, !total_repeat. change (width 0x301) with 2. change (width 0x323) with 2. lia.
Qed.
Lemma plain_variant cps rs : Forall (fun c => scalar c /\ fd c = [c] /\ is_syllable c = false) cps -> Forall2 variant cps rs -> concat rs = cps.
Proof.
  intros F V. induction V as [|cp r cps rs V _ IH]; [reflexivity|]. inversion_clear F as [|? ? (_ & F1 & F2) F']. cbn [concat]. rewrite (IH F').
  destruct V as [->|[Y _]]; [rewrite F1; reflexivity|congruence].
Qed.
Lemma plain_fds cps : Forall (fun c => scalar c /\ fd c = [c] /\ is_syllable c = false) cps -> fds cps = cps.
Proof. induction 1 as [|c cps (_ & F & _) _ IH]; [reflexivity|]. rewrite fds_cons, F, IH. reflexivity. Qed.
Lemma hard_cost n : exists s b k, zlen s = 4 * Z.of_nat n + 1 /\ input s [0] None /\ encodes s (hard n) /\
  charstr_unicode_decompose_cost (s ++ [0]) None (repeat 0 (4 * n + 2)) 0 (4 * Z.of_nat n + 2) = Ok (b, inl (4 * Z.of_nat n + 1), k) /\
  2 * Z.of_nat n * Z.of_nat n <= k.
Proof.
  pose proof (hard_plain n) as P. pose proof (hard_total n) as T. assert (Sc : Forall scalar (hard n)) by (eapply Forall_impl; [|exact P]; cbn; tauto).
  set (s := encs (hard n)). assert (E : encodes s (hard n)) by (apply encodes_encs; exact Sc).
  assert (L : zlen s = 4 * Z.of_nat n + 1) by (unfold s; rewrite encs_zlen by exact Sc; exact T).
  assert (I : input s [0] None).
  { split; [|right; exists [], []; split; [reflexivity|]; split; [constructor|auto]]. unfold s, text.
    assert (Pos : Forall (fun c => c <> 0) (hard n)).
    { unfold hard. constructor; [lia|]. apply Forall_app. split; apply Forall_forall; intros x X; apply repeat_spec in X; lia. }
    clear - Sc Pos. induction (hard n) as [|c l IH]; [constructor|]. rewrite encs_cons. apply Forall_app. inversion_clear Sc. inversion_clear Pos.
    split; [|auto]. apply utf8_text; assumption. }
  exists s. pose proof (proj1 (encodes_scanned _ _) E) as S. set (free := repeat 0 (4 * n + 2)).
  assert (Lf : zlen free = 4 * Z.of_nat n + 2) by (unfold free, zlen; rewrite repeat_length; lia).
  destruct (decompose_split s _ true [0] None [] free [] S I) as (b & r & k & D & H).
  destruct (decompose_ok s _ true [0] None [] free [] S I) as (free' & o & D' & _ & O).
  rewrite <- decompose_erase, D in D'. injection D' as -> ->. change (zlen (@nil Z)) with 0 in *. cbn [app] in *. rewrite app_nil_r in D. rewrite Lf in *. cbn [Z.add] in D.
  rewrite (plain_fds _ P), T in O. destruct o as [m|err]; [|destruct O as [[_ X]|[_ X]]; [discriminate|lia]].
  destruct H as (k0 & rs & V & -> & K0 & ->). rewrite (plain_variant _ _ P V), T in *. exists (free' ++ []), (k0 + work (hard n) [] 0).
  split; [exact L|]. split; [exact I|]. split; [exact E|]. split; [exact D|]. pose proof (hard_work n). lia.
Qed.

(** * Linear for strings without long sequences of combining characters *)

Fixpoint marks_ok (m cur : Z) (l : list Z) : Prop :=
  match l with
  | [] => cur <= m
  | c :: l => cur <= m /\ if ccc c =? 0 then marks_ok m 0 l else marks_ok m (cur + 1) l
  end.
Lemma total_most l : total l <= 4 * zlen l.
Proof. induction l as [|c l IH]; [cbn; lia|]. change (total (c :: l)) with (width c + total l). rewrite zlen_cons. pose proof (width_max c). lia. Qed.
Lemma ins_zlen c run : zlen (ins c run) = zlen run + 1.
Proof. induction run as [|x run IH]; cbn [ins]; [reflexivity|]. destruct (_ >? _); rewrite !zlen_cons; lia. Qed.
Lemma work_linear m rest : forall run last, marks_ok m (zlen run) rest -> work rest run last <= zlen rest * (8 * m + 10).
Proof.
  induction rest as [|c rest IH]; intros run last; cbn [marks_ok work]; [change (zlen (@nil Z)) with 0; lia|]. intros [L H]. rewrite zlen_cons.
  pose proof (zlen_nonneg run). pose proof (zlen_nonneg rest). destruct (ccc c =? 0); [|destruct (_ >=? last)].
  - specialize (IH [] 0 H). nia.
  - specialize (IH (run ++ [c]) (ccc c)). rewrite zlen_app in IH. change (zlen [c]) with 1 in IH. specialize (IH H). nia.
  - specialize (IH (ins c run) last). rewrite ins_zlen in IH. specialize (IH H). pose proof (sift_work_most c run). pose proof (total_most run). nia.
Qed.
Lemma marks_weaken m l : forall c c', c' <= c -> marks_ok m c l -> marks_ok m c' l.
Proof.
  induction l as [|x l IH]; intros c c' L; cbn [marks_ok]; [lia|]. intros [A B]. split; [lia|]. destruct (ccc x =? 0); [exact B|]. eapply IH; [|exact B]. lia.
Qed.
Lemma marks_pattern m l : forall l' c, map (fun x => ccc x =? 0) l = map (fun x => ccc x =? 0) l' -> marks_ok m c l -> marks_ok m c l'.
Proof.
  induction l as [|x l IH]; intros [|x' l'] c E; cbn [map] in E; try discriminate; [auto|]. injection E as E1 E2. cbn [marks_ok]. rewrite <- E1.
  intros [A B]. split; [exact A|]. destruct (ccc x =? 0); apply (IH _ _ E2); exact B.
Qed.
Lemma marks_starters m js : Forall (fun x => ccc x = 0) js -> js <> [] -> forall c l, marks_ok m c (js ++ l) -> c <= m /\ marks_ok m 0 l.
Proof.
  induction 1 as [|x js H F IH]; intros N c l; [congruence|]. cbn [app marks_ok]. rewrite H. change (0 =? 0) with true. cbv iota. intros [A B]. split; [exact A|].
  destruct js as [|y js]; [exact B|]. eapply IH; [discriminate|exact B].
Qed.
Lemma marks_prefix m p l l' : (forall c, marks_ok m c l -> marks_ok m c l') -> forall c, marks_ok m c (p ++ l) -> marks_ok m c (p ++ l').
Proof.
  intros H. induction p as [|x p IH]; intros c; [apply H|]. cbn [app marks_ok]. intros [A B]. split; [exact A|]. destruct (ccc x =? 0); apply IH; exact B.
Qed.
Lemma marks_variant m cps rs : Forall2 variant cps rs -> forall c, marks_ok m c (fds cps) -> marks_ok m c (concat rs).
Proof.
  induction 1 as [|cp r cps rs V _ IH]; intros c; [auto|]. rewrite fds_cons. cbn [concat]. destruct V as [->|[Y ->]]; [apply marks_prefix; exact IH|].
  pose proof Y as Y'. apply is_syllable_ok in Y' as (l & v & t & K). rewrite (fd_syllable _ _ _ _ K). intros M.
  assert (J : Forall (fun x => ccc x = 0) (jamo l v t)).
  { apply Forall_forall. intros x I. destruct K as (Hl & Hv & Ht & _). apply ccc_hangul. apply (jamo_hangul l v t x Hl Hv Ht I). }
  apply marks_starters in M as [A B]; [|exact J|unfold jamo; discriminate]. cbn [app marks_ok].
  rewrite (ccc_hangul cp (is_syllable_hangul _ Y)). change (0 =? 0) with true. cbv iota. split; [exact A|]. apply IH. exact B.
Qed.
Lemma exchanges_pattern u t : exchanges u t -> map (fun x => ccc x =? 0) u = map (fun x => ccc x =? 0) t.
Proof.
  induction 1 as [|s t u E _ IH]; [reflexivity|]. rewrite <- IH. destruct E as [pre a b post ca cb A B G P]. apply class_ccc in A, B.
  rewrite !map_app. cbn [map]. replace (ccc a =? 0) with false by lia. replace (ccc b =? 0) with false by lia. reflexivity.
Qed.
Lemma few_marks_ok m l : forall run, Forall (fun c => ~ starter c) run ->
  (forall pre ns post, run ++ l = pre ++ ns ++ post -> Forall (fun c => ~ starter c) ns -> zlen ns <= m) -> marks_ok m (zlen run) l.
Proof.
  induction l as [|x l IH]; intros run F H; cbn [marks_ok].
  - apply (H [] run []); [reflexivity|exact F].
  - split; [apply (H [] run (x :: l)); [reflexivity|exact F]|]. destruct (ccc x =? 0) eqn:E.
    + apply (IH []); [constructor|]. intros pre ns post Q N. apply (H (run ++ x :: pre) ns post); [|exact N]. rewrite <- app_assoc. cbn [app] in *. rewrite Q. reflexivity.
    + replace (zlen run + 1) with (zlen (run ++ [x])) by (rewrite zlen_app; reflexivity). apply IH.
      * apply Forall_app. split; [exact F|]. constructor; [|constructor]. intros S. apply class_ccc in S. lia.
      * intros pre ns post Q. apply (H pre ns post). rewrite <- app_assoc in Q. exact Q.
Qed.
Lemma decompose_linear m s cps t q e pre free post : input s q e -> encodes s cps -> nfd cps t -> 0 <= m ->
  (forall before ns after, t = before ++ ns ++ after -> Forall (fun c => ~ starter c) ns -> zlen ns <= m) ->
  exists b r k, charstr_unicode_decompose_cost (s ++ q) e (pre ++ free ++ post) (zlen pre) (zlen pre + zlen free) = Ok (b, r, k) /\
    0 <= k <= (24 * m + 38) * zlen s.
Proof.
  intros I E N M H. pose proof (proj1 (encodes_scanned _ _) E) as S.
  destruct (decompose_split s cps true q e pre free post S I) as (b & r & k & D & R). exists b, r, k. split; [exact D|].
  pose proof (zlen_nonneg s). destruct r as [n|err]; [|nia]. destruct R as (k0 & rs & V & _ & K0 & ->).
  pose proof (work_most (concat rs) [] 0) as W. assert (T : total (concat rs) <= 3 * zlen s).
  { pose proof (scanned_width_strict _ _ _ S) as Y. cbv iota in Y. assert (X : total (concat rs) <= 3 * total cps); [|lia].
    pose proof (scanned_scalar _ _ _ S) as SC. clear - V SC. induction V as [|cp r cps rs V _ IH]; [cbn; lia|]. inversion_clear SC as [|? ? Sc Ss].
    cbn [concat]. rewrite total_app. change (total (cp :: cps)) with (width cp + total cps). pose proof (variant_total _ _ Sc V). specialize (IH Ss). lia. }
  assert (Z1 : zlen (concat rs) <= total (concat rs)).
  { clear. induction (concat rs) as [|c l IH]; [cbn; lia|]. change (total (c :: l)) with (width c + total l). rewrite zlen_cons. pose proof (width_pos c). lia. }
  assert (Q : marks_ok m 0 (concat rs)).
  { apply (marks_variant m cps rs V). destruct N as (u & Du & Xu & _). apply decomposed_all_iff in Du as ->.
    apply (marks_pattern m t); [symmetry; apply exchanges_pattern; exact Xu|]. apply (few_marks_ok m t []); [constructor|]. exact H. }
  pose proof (work_linear m (concat rs) [] 0 Q). pose proof (zlen_nonneg (concat rs)). nia.
Qed.
