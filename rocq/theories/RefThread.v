(** References that are taken and given up one at a time. *)
From Verif Require Import Base Heap CMem ObjModel ByteHeapModel OwnSpec ObjBase ThreadModel ThreadSpec RefThreadSpec.
From Verif Require ByteArrayModel ByteHeap.
Open Scope list_scope.
Open Scope Z_scope.

Lemma total_set_nth i n m l : nth_error l i = Some n -> total (set_nth i m l) = total l - n + m.
Proof.
  revert l. induction i as [|i IH]; intros [|x l] E; cbn [nth_error] in E; try discriminate.
  - injection E as ->. cbn. lia.
  - unfold set_nth in *. cbn [firstn skipn app total fold_right] in *. change (fold_right Z.add 0) with total. rewrite (IH l E). lia.
Qed.
Lemma nonneg_set_nth i m l : 0 <= m -> Forall (fun n => 0 <= n) l -> Forall (fun n => 0 <= n) (set_nth i m l).
Proof.
  intros M F. unfold set_nth. apply Forall_forall. intros x X. rewrite Forall_forall in F. apply in_app_or in X as [X|[<-|X]]; [|exact M|]; apply F.
  - rewrite <- (firstn_skipn i l). apply in_or_app. left; exact X.
  - rewrite <- (firstn_skipn (S i) l). apply in_or_app. right; exact X.
Qed.
Lemma total_nonneg l : Forall (fun n => 0 <= n) l -> 0 <= total l.
Proof. induction 1 as [|x l X _ IH]; [reflexivity|]. cbn. change (fold_right Z.add 0 l) with (total l). lia. Qed.
Lemma total_has i n l : Forall (fun n => 0 <= n) l -> nth_error l i = Some n -> n <= total l.
Proof.
  intros F E. pose proof (total_set_nth i n 0 l E) as T. pose proof (total_nonneg _ (nonneg_set_nth i 0 l ltac:(lia) F)). lia.
Qed.

Lemma call_ok h p d c m s r b act : array_at h p d c m s r b -> 0 < r < 2 ^ 32 - 1 ->
  exists h', call_of p act h = Ok (tt, h') /\
    if references act r =? 0 then get h' p = None /\ get h' d = None /\ forall x, x <> p -> x <> d -> get h' x = get h x
    else array_at h' p d c m s (references act r) b /\ forall x, x <> p -> get h' x = get h x.
Proof.
  intros A R. set (a := ByteArrayModel.BA b c m s r 0).
  assert (K : forall h' r', ByteHeap.bytes_at h' p d (ByteArrayModel.BA b c m s r' 0) -> turns [p; d] [p; d] h h' -> forall x, x <> p -> get h' x = get h x).
  { intros h' r' (_ & B & _) (T & _) x X. destruct (Z.eq_dec x d) as [->|D]; [|apply T; cbn; intuition congruence].
    destruct A as (_ & A & _). rewrite A. exact B. }
  destruct act; cbn [call_of references].
  - destruct (ByteHeap.share_own p h d a A) as (h' & E & A' & T). rewrite (bnd_Ok _ _ _ _ _ E). exists h'. split; [reflexivity|].
    replace (r + 1 =? 0) with false by lia. unfold ByteArrayModel.share_byte_array in A'. cbn in A'. rewrite u32_small in A' by lia. split; [exact A'|exact (K _ _ A' T)].
  - destruct (ByteHeap.destroy_own p h d a A) as (h' & E & D). rewrite E. exists h'. split; [reflexivity|].
    unfold ByteArrayModel.destroy_byte_array in D. cbn in D. rewrite u32_small in D by lia. unfold truth in D. destruct (r - 1 =? 0); cbn [negb] in D.
    + destruct D as (T & _ & G). split; [apply G; cbn; auto|]. split; [apply G; cbn; auto|]. intros x X Y. apply T; cbn; intuition congruence.
    + destruct D as (A' & T). split; [exact A'|exact (K _ _ A' T)].
  - rewrite (bnd_Ok _ _ _ _ _ (ByteHeap.size_own p h d a A)). exists h. split; [reflexivity|]. replace (r =? 0) with false by lia. split; [exact A|reflexivity].
Qed.

Theorem locked_ok acts : forall counts counts' h p d c m s b, array_at h p d c m s (total counts) b ->
  Forall (fun n => 0 <= n) counts -> 0 < total counts -> total counts + zlen acts < 2 ^ 32 - 1 -> held counts acts = Some counts' ->
  exists h', one_at_a_time p acts h = Ok (tt, h') /\
    if total counts' =? 0 then get h' p = None /\ get h' d = None /\ forall x, x <> p -> x <> d -> get h' x = get h x
    else array_at h' p d c m s (total counts') b /\ forall x, x <> p -> get h' x = get h x.
Proof.
  induction acts as [|[i act] acts IH]; intros counts counts' h p d c m s b A F P L E; cbn [held one_at_a_time] in *.
  - injection E as <-. exists h. split; [reflexivity|]. replace (total counts =? 0) with false by lia. split; [exact A|reflexivity].
  - destruct (nth_error counts i) as [n|] eqn:Ei; [|discriminate]. destruct (Z.ltb_spec 0 n) as [N|]; [|discriminate].
    rewrite zlen_cons in L. pose proof (zlen_nonneg acts).
    destruct (call_ok h p d c m s (total counts) b act A ltac:(lia)) as (h1 & E1 & R1). rewrite (bnd_Ok _ _ _ _ _ E1).
    set (counts1 := set_nth i (references act n) counts) in *.
    assert (T1 : total counts1 = references act (total counts)) by (unfold counts1; rewrite (total_set_nth _ _ _ _ Ei); destruct act; cbn [references]; lia).
    assert (F1 : Forall (fun n => 0 <= n) counts1) by (apply nonneg_set_nth; [destruct act; cbn [references]; lia|exact F]).
    rewrite <- T1 in R1. destruct (Z.eqb_spec (total counts1) 0) as [Z0|NZ].
    + destruct acts as [|[j act'] acts].
      * cbn [held] in E. injection E as <-. exists h1. split; [reflexivity|]. rewrite Z0. exact R1.
      * cbn [held] in E. destruct (nth_error counts1 j) as [n'|] eqn:Ej; [|discriminate]. destruct (Z.ltb_spec 0 n') as [N'|]; [|discriminate].
        pose proof (total_has _ _ _ F1 Ej). lia.
    + destruct R1 as (A1 & U1). pose proof (total_nonneg _ F1).
      destruct (IH counts1 counts' h1 p d c m s b A1 F1 ltac:(lia) ltac:(rewrite T1; destruct act; cbn [references]; lia) E) as (h' & E' & R'). exists h'. split; [exact E'|].
      destruct (total counts' =? 0).
      * destruct R' as (G & G' & U). split; [exact G|]. split; [exact G'|]. intros x X Y. rewrite (U x X Y). exact (U1 x X).
      * destruct R' as (A' & U). split; [exact A'|]. intros x X. rewrite (U x X). exact (U1 x X).
Qed.
