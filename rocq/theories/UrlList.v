(** Lists of URL-encoded strings: proofs. *)
From Verif Require Import Base CMem CharstrModel CharstrSpec CharstrProofs IdnaTextProofs UrlModel UrlSpec UrlProofs UrlListSpec.
From Coq Require Import ZifyBool ZifyNat.
Notation join := CharstrSpec.join.

Lemma split_again junk fields r delim max : fields <> [] -> text (join [delim] fields) -> 0 < delim < 256 ->
  Forall (fun f => ~ In delim f) fields -> zlen fields <= max + 1 -> zlen (join [delim] fields) + 1 < 2 ^ 64 ->
  charstr_split junk (join [delim] fields ++ 0 :: r) delim max = Ok (map as_block fields).
Proof.
  intros N T D F M L. assert (0 < zlen fields) by (destruct fields; [congruence|rewrite zlen_cons; pose proof (zlen_nonneg fields); lia]).
  destruct (split_ok junk (join [delim] fields) r delim max T D ltac:(lia) L) as (parts & -> & J & Z & R).
  assert (C : count delim (join [delim] fields) = zlen fields - 1).
  { rewrite count_join; [|exact N|]; pose proof F as F'; rewrite (app_removelast_last [] N) in F'; apply Forall_app in F'; destruct F' as (F1 & F2); [|exact F1].
    rewrite (count_zero delim (last fields [])); [lia|]. exact (Forall_inv F2). }
  rewrite C, Z.min_r in Z by lia.
  assert (parts <> []) as P by (intros ->; change (zlen []) with 0 in Z; lia).
  do 2 f_equal. apply (join_unique delim); try assumption. apply (forall_last _ _ []); try assumption.
  apply count_in. pose proof (count_join delim parts P R) as C'. rewrite J in C'. lia.
Qed.
Lemma join_map_len {A} (d : Z) (g h : A -> list Z) l : (forall x, In x l -> zlen (g x) <= 3 * zlen (h x)) ->
  zlen (join [d] (map g l)) <= 3 * zlen (join [d] (map h l)).
Proof.
  induction l as [|x l IH]; intros H; [cbn; lia|]. pose proof (H x (or_introl eq_refl)) as Hx. destruct l as [|y l]; [exact Hx|].
  cbn [map] in *. rewrite (join_cons _ (g x)), (join_cons _ (h x)) by discriminate. rewrite !zlen_app. specialize (IH (fun z I => H z (or_intror I))). change (zlen [d]) with 1. lia.
Qed.
Lemma join_texts d (l : list (list Z)) : 0 < d < 256 -> Forall text l -> text (join [d] l).
Proof.
  intros D H. induction H as [|x l X H IH]; [constructor|]. destruct l as [|y l]; [exact X|]. rewrite join_cons by discriminate.
  apply text_app. split; [exact X|]. apply text_app. split; [constructor; [lia|constructor]|exact IH].
Qed.
Section Encoder.
Context (reserve unreserve : list Z) (t : url_encoder) (H : encoder_for reserve unreserve t) (U1 : ~ In 37 unreserve) (U2 : ~ In 43 unreserve).
Definition enc (f : list Z) : list Z := concat (map (charstr_url_custom_encode_byte t) f).
Lemma enc_back junk junk' f : text f -> 3 * zlen f + 1 < 2 ^ 64 -> there_and_back junk junk' t f (enc f).
Proof.
  intros T L. split.
  - intros r. destruct (encode_ok junk reserve unreserve t f r H T L) as (slack & E & S). rewrite (S U1) in E. exact E.
  - destruct (round_trip junk junk' reserve unreserve t f [] H U1 U2 T L) as (e & E & D). destruct (encode_ok junk reserve unreserve t f [] H T L) as (slack & E' & S).
    rewrite (S U1), E in E'. injection E' as E'. apply app_inj_tail in E'. destruct E' as (-> & _). exact D.
Qed.
Lemma enc_free d f : never_emitted t d -> text f -> ~ In d (enc f).
Proof.
  intros N T I. unfold enc in I. apply in_concat in I. destruct I as (x & I & D). apply in_map_iff in I. destruct I as (c & <- & C).
  unfold text in T. rewrite Forall_forall in T. exact (N c (T c C) D).
Qed.
Lemma fields_ok junk' d fields r max : 0 < d < 256 -> never_emitted t d -> fields <> [] -> Forall text fields ->
  3 * zlen (join [d] fields) + 1 < 2 ^ 64 -> zlen fields <= max + 1 ->
  charstr_split junk' (join [d] (map enc fields) ++ 0 :: r) d max = Ok (map as_block (map enc fields)).
Proof.
  intros D N E T L M. apply split_again; [| |exact D| | |].
  - intros X. apply E. exact (map_eq_nil _ _ X).
  - apply join_texts; [exact D|]. apply Forall_map. eapply Forall_impl; [|exact T]. intros f F. exact (text_encoding reserve unreserve t f H F).
  - apply Forall_map. eapply Forall_impl; [|exact T]. intros f F. exact (enc_free d f N F).
  - unfold zlen in *. rewrite map_length. exact M.
  - pose proof (join_map_len d enc (fun x => x) fields) as J. rewrite map_id in J. enough (zlen (join [d] (map enc fields)) <= 3 * zlen (join [d] fields)) by lia. apply J.
    intros x I. rewrite Forall_forall in T. exact (encoding_length reserve unreserve t x H (T x I)).
Qed.
Lemma back_all junk junk' d fields : Forall text fields -> 3 * zlen (join [d] fields) + 1 < 2 ^ 64 -> Forall2 (there_and_back junk junk' t) fields (map enc fields).
Proof.
  intros T L. assert (K : Forall (fun f => 3 * zlen f + 1 < 2 ^ 64) fields).
  { apply Forall_forall. intros f I. pose proof (join_len d fields f I). lia. }
  clear L. induction T as [|f fields F T IH]; [constructor|]. cbn [map]. constructor; [apply enc_back; [exact F|exact (Forall_inv K)]|]. apply IH. exact (Forall_inv_tail K).
Qed.
Lemma records_ok junk junk' junk'' d1 d2 records r max1 max2 : 0 < d1 < 256 -> 0 < d2 < 256 -> d1 <> d2 -> never_emitted t d1 -> never_emitted t d2 ->
  records <> [] -> Forall (fun fs => fs <> [] /\ Forall text fs /\ zlen fs <= max2 + 1) records ->
  3 * zlen (join [d1] (map (join [d2]) records)) + 1 < 2 ^ 64 -> zlen records <= max1 + 1 ->
  Forall2 (Forall2 (there_and_back junk junk' t)) records (map (map enc) records) /\
  charstr_split junk'' (join [d1] (map (join [d2]) (map (map enc) records)) ++ 0 :: r) d1 max1 = Ok (map as_block (map (join [d2]) (map (map enc) records))) /\
  Forall (fun es => charstr_split junk'' (as_block (join [d2] es)) d2 max2 = Ok (map as_block es)) (map (map enc) records).
Proof.
  intros D1 D2 N N1 N2 E F L M.
  assert (K : Forall (fun fs => 3 * zlen (join [d2] fs) + 1 < 2 ^ 64) records).
  { apply Forall_forall. intros fs I. pose proof (join_len d1 (map (join [d2]) records) (join [d2] fs) (in_map _ _ _ I)). lia. }
  split; [|split].
  - clear E L M. induction F as [|fs records (A & B & C) F IH]; [constructor|]. cbn [map]. constructor; [apply (back_all junk junk' d2); [exact B|exact (Forall_inv K)]|].
    apply IH. exact (Forall_inv_tail K).
  - apply split_again; [| |exact D1| | |].
    + intros X. apply E. apply map_eq_nil in X. exact (map_eq_nil _ _ X).
    + apply join_texts; [exact D1|]. apply Forall_map, Forall_map. eapply Forall_impl; [|exact F]. intros fs (A & B & C). apply join_texts; [exact D2|].
      apply Forall_map. eapply Forall_impl; [|exact B]. intros f G. exact (text_encoding reserve unreserve t f H G).
    + apply Forall_map, Forall_map. eapply Forall_impl; [|exact F]. intros fs (A & B & C). apply join_free; [exact N|]. apply Forall_map. eapply Forall_impl; [|exact B].
      intros f G. exact (enc_free d1 f N1 G).
    + unfold zlen in *. rewrite !map_length. exact M.
    + rewrite map_map. enough (zlen (join [d1] (map (fun x => join [d2] (map enc x)) records)) <= 3 * zlen (join [d1] (map (join [d2]) records))) by lia.
      apply join_map_len. intros fs I. rewrite Forall_forall in F. destruct (F fs I) as (_ & B & _).
      pose proof (join_map_len d2 enc (fun x => x) fs) as J. rewrite map_id in J. apply J. intros x Ix. rewrite Forall_forall in B. exact (encoding_length reserve unreserve t x H (B x Ix)).
  - clear E L M. induction F as [|fs records (A & B & C) F IH]; [constructor|]. cbn [map]. constructor; [|apply IH; exact (Forall_inv_tail K)].
    unfold as_block at 1. apply fields_ok; try assumption. exact (Forall_inv K).
Qed.
End Encoder.

Lemma upper_hex_range n : 0 <= n < 16 -> 48 <= upper_hex n <= 57 \/ 65 <= upper_hex n <= 70.
Proof. intros N. assert (C : n = 0 \/ n = 1 \/ n = 2 \/ n = 3 \/ n = 4 \/ n = 5 \/ n = 6 \/ n = 7 \/ n = 8 \/ n = 9 \/ n = 10 \/ n = 11 \/ n = 12 \/ n = 13 \/ n = 14 \/ n = 15) by lia.
  repeat (destruct C as [->|C]; [vm_compute; intuition congruence|]). subst. vm_compute. intuition congruence. Qed.
Lemma percent_free d c : 0 <= c < 256 -> d <> 37 -> ~ (48 <= d <= 57) -> ~ (65 <= d <= 70) -> ~ In d (percent_encoding c).
Proof.
  intros C P A B [I|[I|[I|[]]]]; [congruence| |].
  - pose proof (upper_hex_range (c / 16) ltac:(Z.div_mod_to_equations; lia)). lia.
  - pose proof (upper_hex_range (c mod 16) ltac:(Z.div_mod_to_equations; lia)). lia.
Qed.
Lemma reserved_free reserve unreserve t d : encoder_for reserve unreserve t -> In d reserve -> ~ In d unreserve ->
  d <> 37 -> d <> 43 -> ~ (48 <= d <= 57) -> ~ (65 <= d <= 70) -> never_emitted t d.
Proof.
  intros H R U P Q A B c C I. rewrite (H c ltac:(lia)) in I. destruct (mem c unreserve) eqn:M.
  - apply mem_ok in M. destruct I as [->|[]]. contradiction.
  - destruct (mem c reserve) eqn:N; [exact (percent_free d c ltac:(lia) P A B I)|].
    assert (c <> d) by (intros ->; apply mem_ok in R; congruence).
    pose proof (default_code c ltac:(lia)) as K. revert I K. generalize (charstr_url_encode_byte c). intros l I K. inversion K; subst; cbn [In] in I.
    + destruct I as [I|[]]; congruence.
    + match goal with F : In _ [] |- _ => destruct F end.
    + destruct I as [I|[]]; congruence.
    + exact (percent_free d c ltac:(lia) P A B I).
Qed.
Lemma default_free d : In d [33; 35; 36; 38; 39; 40; 41; 42; 44; 58; 59; 61; 63; 64; 91; 10; 32] -> never_emitted default_encoder d.
Proof.
  intros D c C I.
  assert (E : forallb (fun d => negb (existsb (Z.eqb d) (charstr_url_custom_encode_byte default_encoder c))) [33; 35; 36; 38; 39; 40; 41; 42; 44; 58; 59; 61; 63; 64; 91; 10; 32] = true).
  { assert (C' : 0 <= c < 256) by lia. revert c C' I C. intros c C' _ _. revert c C'. apply all_bytes. vm_compute. reflexivity. }
  rewrite forallb_forall in E. specialize (E d D). apply negb_true_iff in E. assert (X : existsb (Z.eqb d) (charstr_url_custom_encode_byte default_encoder c) = true).
  { apply existsb_exists. exists d. split; [exact I|]. apply Z.eqb_refl. }
  congruence.
Qed.
