(** Functions that return one new block: proofs. *)
From Verif Require Import Base CMem Heap ListModel ListSpec ListProofs CharstrModel CharstrSpec CharstrProofs Utf8Model UrlModel.
From Verif Require Import Base64Model Base64Spec Base64Proofs Base64Decode Base64Round OwnModel OwnSpec OwnProofs NewMemModel.
From Coq Require Import ZifyBool ZifyNat.

Lemma new_block_and_size_ok d n h : exists p h', new_block_and_size (Ok (Some (d, n))) h = Ok ((p, Some n), h') /\ one_new_block h h' p d.
Proof.
  destruct (new_string_ok d h) as (p & h' & E & O). exists p, h'. split; [|exact O]. unfold new_block_and_size. rewrite step_lift.
  unfold new_string in E. rewrite step_lift in E. rewrite (bnd_Ok _ _ _ _ _ E). reflexivity.
Qed.

(** base64_decode_simple in full *)
Lemma decode_simple_ok junk t r : Forall (fun c => byte c /\ c <> 0) t -> zlen t < 2 ^ 62 ->
  (exists d, Base64Spec.decodes (code_value 43 47) code_wsp t d /\ base64_decode_simple junk (t ++ 0 :: r) = Ok (Some (d ++ [0], zlen d))) \/
  ((forall d, ~ Base64Spec.decodes (code_value 43 47) code_wsp t d) /\ base64_decode_simple junk (t ++ 0 :: r) = Ok None).
Proof.
  intros Ht Hl. pose proof (zlen_nonneg t) as P.
  assert (Htext : text_of (t ++ 0 :: r) (u64 (-1)) t).
  { split; [exact Ht|]. exists (0 :: r). split; [reflexivity|]. right. split; [|exists r; reflexivity]. change (u64 (-1)) with (2 ^ 64 - 1). lia. }
  destruct (decode_exact (t ++ 0 :: r) (u64 (-1)) t [] 0 (-1) (-1) true Htext ltac:(lia) ltac:(cbn; lia) ltac:(lia) ltac:(lia) good_43 good_47)
    as [(d & dest' & D & E)|(N & dest' & E)].
  - left. exists d. split; [exact D|]. unfold base64_decode_simple. rewrite E. cbn [bind].
    assert (K : zlen (fresh_block junk (zlen d + 1)) = zlen d + 1) by (apply fresh_block_zlen; pose proof (zlen_nonneg d); lia).
    set (blk := fresh_block junk (zlen d + 1)) in *. clearbody blk. pose proof (zlen_nonneg d) as P2.
    pose proof (decode_short (t ++ 0 :: r) (u64 (-1)) t blk (zlen d) (-1) (-1) true Htext ltac:(lia)
                  ltac:(lia) ltac:(lia) ltac:(lia) good_43 good_47 d D) as H2.
    cbv zeta in H2. rewrite H2. cbn [bind]. rewrite Z.min_id, zlen_to_nat, firstn_all.
    destruct (skipn_S_cons (length d) blk) as [x Hx]; [unfold zlen in K; lia|].
    rewrite Hx. rewrite (wr_app d) by reflexivity. cbn [bind]. rewrite skipn_all2; [reflexivity|].
    unfold zlen in K; lia.
  - right. split; [exact N|]. unfold base64_decode_simple. rewrite E. reflexivity.
Qed.

Lemma encode_simple_ok junk data r : bytes data -> zlen data < 2 ^ 60 ->
  base64_encode_simple junk (data ++ r) (zlen data) = Ok (Some (base64 43 47 data ++ [0])).
Proof.
  intros Hb Hl. pose proof (zlen_nonneg data) as Hdn. set (E := base64 43 47 data).
  assert (HE : zlen E = (zlen data + 2) / 3 * 4) by apply base64_zlen. pose proof (zlen_nonneg E).
  unfold base64_encode_simple. rewrite encoding_size_correct by (unfold SIZE_MAX; lia).
  replace (_ <=? SIZE_MAX) with true by (unfold SIZE_MAX; lia). rewrite <- HE.
  change (u64 (-1)) with (2 ^ 64 - 1). replace (zlen E =? 2 ^ 64 - 1) with false by lia.
  rewrite u64_small by lia.
  pose proof (encode_buffer_ok data r (fresh_block junk (zlen E + 1)) (zlen E + 1) (-1) (-1) Hb) as H1.
  rewrite H1; [|lia|rewrite fresh_block_zlen; lia]. cbv zeta.
  change (pos_char (-1) 43) with 43. change (pos_char (-1) 47) with 47. fold E. cbn [bind].
  rewrite terminated_room by (rewrite fresh_block_zlen; lia).
  rewrite skipn_all2; [reflexivity|].
  assert (K : zlen (fresh_block junk (zlen E + 1)) = zlen E + 1) by (apply fresh_block_zlen; lia).
  unfold zlen in K |- *. lia.
Qed.

Lemma block_step {A} h a pre s (f : list Z -> M A) : get h a = Some (CSlots (pre ++ s)) ->
  bnd (ld_slots a) f h = f (pre ++ s) h.
Proof. intros G. unfold bnd, ld_slots. rewrite G. reflexivity. Qed.
