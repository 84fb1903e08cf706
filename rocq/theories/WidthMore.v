(** Strings whose results are too long for size_t, and sequences of appends. *)
From Verif Require Import Base CMem CharstrModel CharstrSpec CharstrProofs UrlModel UrlProofs Utf8Spec Utf8Proofs ByteArrayModel WidthModel WidthSpec WidthInt Width.
From Coq Require Import ZifyBool ZifyNat.

(** The length of a string of which every byte becomes three. *)
Definition many (w : Z) : Z := 2 ^ w / 3 + 1.

Lemma many_ok w : 4 <= w -> 0 <= many w /\ many w + 1 < 2 ^ (w - 1) /\ 2 ^ w < 3 * many w.
Proof.
  intros H. unfold many. assert (P : 2 ^ w = 2 * 2 ^ (w - 1)) by (replace w with (1 + (w - 1)) at 1 by lia; apply Z.pow_add_r; lia).
  assert (Q : 8 <= 2 ^ (w - 1)) by (change 8 with (2 ^ 3); apply Z.pow_le_mono_r; lia).
  pose proof (Z.div_mod (2 ^ w) 3 ltac:(lia)). pose proof (Z.mod_pos_bound (2 ^ w) 3 ltac:(lia)). lia.
Qed.

Lemma zlen_repeat {A} (x : A) n : 0 <= n -> zlen (repeat x (Z.to_nat n)) = n.
Proof. intros H. unfold zlen. rewrite repeat_length. lia. Qed.

Lemma text_repeat c n : 0 < c < 256 -> text (repeat c n).
Proof. intros H. apply Forall_forall. intros x I. apply repeat_spec in I. subst x. exact H. Qed.

Lemma percents n : zlen (concat (map charstr_url_encode_byte (repeat 37 n))) = 3 * Z.of_nat n.
Proof.
  induction n as [|n IH]; [reflexivity|]. cbn [repeat map concat]. rewrite zlen_app, IH. change (zlen (charstr_url_encode_byte 37)) with 3. lia.
Qed.

Lemma url_too_long w : 4 <= w -> exists s, text s /\ zlen s + 1 < 2 ^ (w - 1) /\ forall junk rest, charstr_url_encode_on w junk (s ++ 0 :: rest) = UB.
Proof.
  intros Hw. destruct (many_ok w Hw) as (M0 & M1 & M2). exists (repeat 37 (Z.to_nat (many w))).
  assert (T : text (repeat 37 (Z.to_nat (many w)))) by (apply text_repeat; lia). split; [exact T|]. split; [rewrite zlen_repeat; lia|].
  intros junk rest. rewrite url_encode_on by (assumption || lia). cbv zeta. rewrite percents.
  replace (_ <? _) with false by lia. reflexivity.
Qed.

Lemma lone_bytes n : exists t, sane (repeat 128 n) t /\ zlen t = 3 * Z.of_nat n.
Proof.
  induction n as [|n (t & S & L)]; [exists []; split; [constructor|reflexivity]|]. exists (utf8 0xfffd ++ t). split.
  - cbn [repeat]. apply Sane_bad; [|exact S]. intros (bs & cp & u & E & (P & _)). destruct P; apply (f_equal (hd 0)) in E; cbv beta iota delta [hd app] in E; lia.
  - rewrite zlen_app, L. change (zlen (utf8 65533)) with 3. lia.
Qed.

Lemma sanitize_too_long w : 4 <= w -> exists s, text s /\ zlen s + 1 < 2 ^ (w - 1) /\ forall junk rest, charstr_sanitize_utf8_on w junk (s ++ 0 :: rest) = UB.
Proof.
  intros Hw. destruct (many_ok w Hw) as (M0 & M1 & M2). exists (repeat 128 (Z.to_nat (many w))).
  assert (T : text (repeat 128 (Z.to_nat (many w)))) by (apply text_repeat; lia). split; [exact T|]. split; [rewrite zlen_repeat; lia|].
  intros junk rest. destruct (sanitize_on w junk _ rest ltac:(lia) T) as (t & S & ->). destruct (lone_bytes (Z.to_nat (many w))) as (t' & S' & L).
  rewrite (sane_det _ _ S _ S'), L. replace (_ <? _) with false by lia. reflexivity.
Qed.

Lemma append_all w junk m ds : 1 <= w -> Forall (fun d => zlen d < 2 ^ w) ds -> forall a l rest, rep_on w m a l 0 rest ->
  exists a' rest', append_all_on w junk a ds = Ok a' /\ rep_on w m a' (appended m l ds) 0 rest'.
Proof.
  intros Hw. induction ds as [|d ds IH]; intros H a l rest R; [exists a, rest; split; [reflexivity|exact R]|].
  inversion_clear H as [|? ? H1 H2]. cbn [append_all_on appended].
  destruct (append_on w junk m a l 0 rest d Hw R H1) as (a' & t' & rest' & -> & R' & T). rewrite (T eq_refl) in R'. cbn [bind]. exact (IH H2 _ _ _ R').
Qed.

Lemma appends_on w junk junk' m ds : 1 <= w -> 0 < m < 2 ^ w -> Forall (fun d => zlen d < 2 ^ w) ds ->
  exists a rest, (a <- make_byte_array junk m ;; append_all_on w junk' a ds) = Ok a /\
    data a = appended m [] ds ++ 0 :: rest /\ cursor a = zlen (appended m [] ds).
Proof.
  intros Hw Hm H. unfold make_byte_array. set (n := if 128 >? m then m else 128).
  assert (N : 0 < n < 2 ^ w) by (unfold n; destruct (128 >? m) eqn:E; lia).
  assert (B : zlen (fresh_block junk n) = n) by (apply fresh_block_zlen; lia).
  destruct (fresh_block junk n) as [|x b]; [change (zlen (@nil Z)) with 0 in B; lia|]. rewrite zlen_cons in B.
  change 0 with (zlen (@nil Z)) at 2. change (x :: b) with ([] ++ x :: b). rewrite wr_app by reflexivity. cbn [bind app].
  destruct (append_all w junk' m ds Hw H (BA (0 :: b) 0 m n 1 0) [] b) as (a & rest & E & R1 & R2 & _).
  - unfold rep_on. cbn [data cursor max_size size app]. rewrite zlen_cons. change (zlen (@nil Z)) with 0. repeat split; lia.
  - exists a, rest. auto.
Qed.
