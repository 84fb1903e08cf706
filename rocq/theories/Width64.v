(** With 64 bits the functions of WidthModel.v are those of the other model files. *)
From Verif Require Import Base CMem CharstrModel UrlModel Utf8Model Base64Model IntsetModel IntsetSpec ByteArrayModel WidthModel.

Lemma bind_same {A B} (x y : res A) (f g : A -> res B) : x = y -> (forall a, f a = g a) -> (a <- x ;; f a) = (a <- y ;; g a).
Proof. intros -> H. destruct y; cbn; auto. Qed.

Lemma encoded_length_64 t : forall s n, encoded_length_on 64 t s n = encoded_length t s n.
Proof. induction s as [|c s IH]; intros n; [reflexivity|]. cbn [encoded_length_on encoded_length]. destruct (truth c); [apply IH|reflexivity]. Qed.
Lemma encode_64 junk t s : charstr_url_custom_encode_on 64 junk t s = charstr_url_custom_encode junk t s.
Proof. unfold charstr_url_custom_encode_on. rewrite encoded_length_64. reflexivity. Qed.
Lemma encode_default_64 junk s : charstr_url_encode_on 64 junk s = charstr_url_encode junk s.
Proof. apply encode_64. Qed.

Lemma decoded_length_64 : forall k s n, (length s <= k)%nat -> decoded_length_on 64 s n = decoded_length s n.
Proof.
  induction k as [|k IH]; intros [|c s] n L; cbn [length] in L; try reflexivity; try lia.
  cbn [decoded_length_on decoded_length]. destruct (truth c); [|reflexivity]. destruct (c =? 37); [|apply IH; lia].
  destruct s as [|h s]; [reflexivity|]. destruct (is_hex h); [|reflexivity]. cbn [negb].
  destruct s as [|l s]; [reflexivity|]. destruct (is_hex l); [|reflexivity]. cbn [negb]. cbn [length] in L. apply IH. lia.
Qed.
Lemma decode_64 junk s p : charstr_url_decode_on 64 junk s p = charstr_url_decode junk s p.
Proof. unfold charstr_url_decode_on. rewrite (decoded_length_64 (length s)) by lia. reflexivity. Qed.

Lemma count_bad_64 : forall k t n, count_bad_on 64 k t n = count_bad k t n.
Proof.
  induction k as [|k IH]; intros t n; [reflexivity|]. cbn [count_bad_on count_bad].
  apply bind_same; [reflexivity|]. intros c. destruct (truth c); [|reflexivity]. apply bind_same; [reflexivity|].
  intros [[u x]|]; apply IH.
Qed.
Lemma sanitize_64 junk s : charstr_sanitize_utf8_on 64 junk s = charstr_sanitize_utf8 junk s.
Proof. unfold charstr_sanitize_utf8_on. rewrite count_bad_64. reflexivity. Qed.

Lemma base64_64 n : base64_encoding_size_on 64 n = base64_encoding_size n.
Proof. reflexivity. Qed.

Lemma fill_loop_64 n : forall k b i, fill_loop_on 64 k n b i = fill_loop k n b i.
Proof.
  induction k as [|k IH]; intros b i; [reflexivity|]. cbn [fill_loop_on fill_loop]. destruct (i <? n); [|reflexivity].
  apply bind_same; [reflexivity|]. intros. apply IH.
Qed.
Lemma step_64 s o : step_on 64 64 s o = step s o.
Proof. destruct o as [e|e|]; try reflexivity. unfold step_on, intset_fill_on. rewrite fill_loop_64. reflexivity. Qed.
Lemma run_64 : forall ops s, run_on 64 64 s ops = run s ops.
Proof. induction ops as [|o ops IH]; intros s; [reflexivity|]. cbn [run_on run]. apply bind_same; [apply step_64|]. exact IH. Qed.

Lemma round_loop_64 t : forall k n, round_loop_on 64 k t n = round_loop k t n.
Proof.
  induction k as [|k IH]; intros n; [reflexivity|]. cbn [round_loop_on round_loop]. destruct (n <? t); [|reflexivity].
  change ((2 ^ 64 - 1) / 2) with (SIZE_MAX / 2). destruct (n >? SIZE_MAX / 2); [reflexivity|]. apply IH.
Qed.
Lemma append_64 junk a d len : byte_array_append_on 64 junk a d len = byte_array_append junk a d len.
Proof.
  unfold byte_array_append_on, byte_array_append. apply bind_same; [|reflexivity].
  unfold ensure_space_on, ensure_space. change (Z.to_nat (64 + 2)) with 66%nat. rewrite round_loop_64. reflexivity.
Qed.
