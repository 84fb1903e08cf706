(** The stack of charstr_unicode_decompose and charstr_idna_encode is bounded. *)
From Verif Require Import Base CMem CharstrModel Utf8Model UcdData NormModel NormTables Ptree PunyModel IdnaEncodeModel StackModel.
Open Scope list_scope.
Open Scope Z_scope.
From Coq Require Import ZifyBool ZifyNat.

Lemma bind_ext {A B} (x : res A) (f g : A -> res B) : (forall a, x = Ok a -> f a = g a) -> bind x f = bind x g.
Proof. destruct x; cbn; auto. Qed.

Lemma local_array_ok limit n : n <= limit -> local_array limit n = Ok tt.
Proof. intros H. unfold local_array. replace (n <=? limit) with true by lia. reflexivity. Qed.

(** * Decoding advances by at most four bytes *)

Lemma cur_ok s c : cur s = Ok c -> s = c :: tl s.
Proof. destruct s; [discriminate|]. intros E. injection E as ->. reflexivity. Qed.
Lemma zlen_cons1 {A} (a : A) l : zlen (a :: l) = zlen l + 1.
Proof. unfold zlen. cbn [length]. lia. Qed.
Lemma continuation_step s e cp s' cp' : continuation s e cp = Ok (Some (s', cp')) -> zlen s' = zlen s - 1.
Proof.
  unfold continuation. destruct (at_end s e); [discriminate|]. destruct (cur s) as [c| | |] eqn:C; try discriminate. cbn [bind].
  destruct (negb _); [discriminate|]. intros E. injection E as <- _. rewrite (cur_ok _ _ C) at 2. rewrite zlen_cons1. lia.
Qed.
Lemma decode_step s e s' cp : charstr_decode_utf8_codepoint (Some s) e = Ok (Some (s', cp)) -> zlen s - 4 <= zlen s' <= zlen s - 1.
Proof.
  unfold charstr_decode_utf8_codepoint. destruct (at_end s e); [discriminate|]. destruct (cur s) as [c| | |] eqn:C; try discriminate. cbn [bind].
  pose proof (zlen_cons1 c (tl s)) as L. rewrite <- (cur_ok _ _ C) in L.
  destruct (negb (truth (Z.land c 128))); [intros E; injection E as <- _; lia|].
  destruct (negb (truth (Z.land c 64))); [discriminate|].
  destruct (negb (truth (Z.land c 32))).
  - cbn [bind]. destruct (continuation (tl s) e (Z.land c 31)) as [[[s1 cp1]|]| | |] eqn:E1; try discriminate. cbn [bind].
    destruct (negb _); [discriminate|]. intros E. injection E as <- _. apply continuation_step in E1. lia.
  - destruct (negb (truth (Z.land c 16))).
    + cbn [bind]. destruct (continuation (tl s) e (Z.land c 15)) as [[[s1 cp1]|]| | |] eqn:E1; try discriminate. cbn [bind].
      destruct (continuation s1 e cp1) as [[[s2 cp2]|]| | |] eqn:E2; try discriminate. cbn [bind].
      destruct (negb _); [discriminate|]. intros E. injection E as <- _. apply continuation_step in E1, E2. lia.
    + destruct (truth (Z.land c 8)); [discriminate|].
      destruct (continuation (tl s) e (Z.land c 7)) as [[[s1 cp1]|]| | |] eqn:E1; try discriminate. cbn [bind].
      destruct (continuation s1 e cp1) as [[[s2 cp2]|]| | |] eqn:E2; try discriminate. cbn [bind].
      destruct (continuation s2 e cp2) as [[[s3 cp3]|]| | |] eqn:E3; try discriminate. cbn [bind].
      destruct (negb _); [discriminate|]. intros E. injection E as <- _. apply continuation_step in E1, E2, E3. lia.
Qed.
Lemma decode_at_step b s e a cp : decode_at b s e = Ok (a, cp) -> s + 1 <= a <= s + 4.
Proof.
  unfold decode_at. destruct ((0 <=? s) && (s <=? zlen b)) eqn:R; [|discriminate].
  destruct (charstr_decode_utf8_codepoint _ _) as [[[rest c]|]| | |] eqn:E; try discriminate. cbn [bind].
  intros H. injection H as <- _. apply decode_step in E. unfold zlen in *. rewrite skipn_length in E. lia.
Qed.

(** * Sorting *)

Lemma sift_same limit n : forall b t s after_s e ccc, after_s - s <= limit ->
  sift_limited limit n b t s after_s e ccc = sift n b t s after_s e ccc.
Proof.
  induction n as [|n IH]; intros b t s after_s e ccc L; [reflexivity|]. cbn [sift_limited sift].
  apply bind_ext. intros [after_t t_cp] _. destruct (_ >? ccc); [|apply IH; exact L].
  cbv zeta. rewrite local_array_ok by exact L. reflexivity.
Qed.
Lemma sort_loop_same limit n : 4 <= limit -> forall b begin s e last,
  sort_loop_limited limit n b begin s e last = sort_loop n b begin s e last.
Proof.
  intros L. induction n as [|n IH]; intros b begin s e last; [reflexivity|]. cbn [sort_loop_limited sort_loop].
  destruct (s =? e); [reflexivity|]. apply bind_ext. intros [after_s cp] D. apply decode_at_step in D. cbv zeta.
  destruct (_ =? 0); [apply IH|]. destruct (_ >=? last); [apply IH|]. rewrite sift_same by lia.
  apply bind_ext. intros b' _. apply IH.
Qed.

(** * The recursion of decompose_fully *)

Fixpoint shallow (n : nat) (cp : Z) : bool :=
  match n with
  | O => false
  | S n => match switch decomposition_data cp with None => true | Some d => forallb (shallow n) d end
  end.
Fixpoint shallow_t (n : nat) (cp : Z) : bool :=
  match n with
  | O => false
  | S n => match zget cp decomposition_tree with None => true | Some d => forallb (shallow_t n) d end
  end.
Lemma shallow_t_ok n : forall cp, shallow_t n cp = shallow n cp.
Proof.
  induction n as [|n IH]; intros cp; [reflexivity|]. cbn [shallow_t shallow]. unfold decomposition_tree.
  rewrite <- (switch_zget _ _ decomposition_keys). destruct (switch _ cp) as [d|]; [|reflexivity].
  induction d as [|c d IHd]; [reflexivity|]. cbn [forallb]. rewrite IH, IHd. reflexivity.
Qed.
Lemma shallow_check : forallb (fun '(k, d) => forallb (shallow_t 3) d) decomposition_data = true.
Proof. vm_compute. reflexivity. Qed.
Lemma all_shallow cp : shallow 4 cp = true.
Proof.
  change (match switch decomposition_data cp with None => true | Some d => forallb (shallow 3) d end = true).
  destruct (switch decomposition_data cp) as [d|] eqn:E; [|reflexivity]. apply switch_in in E.
  pose proof (proj1 (forallb_forall _ _) shallow_check _ E) as H. cbn beta iota in H. rewrite forallb_forall in H |- *.
  intros c I. rewrite <- (H c I). symmetry. apply shallow_t_ok.
Qed.
Lemma for_each_ext f g : forall dp b s, (forall d b s, In d dp -> d <> 0 -> f d b s = g d b s) -> for_each f dp b s = for_each g dp b s.
Proof.
  induction dp as [|d dp IH]; intros b s H; [reflexivity|]. cbn [for_each]. destruct s as [s|]; [|reflexivity].
  destruct (truth d) eqn:T; [|reflexivity]. rewrite H; [|left; reflexivity|unfold truth in T; lia].
  apply bind_ext. intros [b' s'] _. apply IH. intros; apply H; [right|]; assumption.
Qed.
Lemma shallow_same n : forall m cp b s e, shallow n cp = true -> (n <= m)%nat -> decompose_fully m cp b s e = decompose_fully n cp b s e.
Proof.
  induction n as [|n IH]; intros m cp b s e H L; [discriminate|]. destruct m as [|m]; [lia|]. cbn [shallow] in H. cbn [decompose_fully].
  unfold _charstr_unicode_decomposition. destruct (switch decomposition_data cp) as [d|]; [|reflexivity].
  rewrite forallb_forall in H. apply for_each_ext. intros c b' s' I N. apply in_app_or in I as [I|[I|[]]]; [|congruence].
  apply IH; [apply H; exact I|lia].
Qed.
Lemma depth_enough m cp b s e : (4 <= m)%nat -> decompose_fully m cp b s e = decompose_fully recursion_depth cp b s e.
Proof.
  intros L. rewrite (shallow_same 4 m) by (try apply all_shallow; exact L).
  rewrite (shallow_same 4 recursion_depth) by (try apply all_shallow; unfold recursion_depth; lia). reflexivity.
Qed.

Lemma decompose_loop_same depth n : (4 <= depth)%nat -> forall s e b q oe, decompose_loop_limited depth n s e b q oe = decompose_loop n s e b q oe.
Proof.
  intros L. induction n as [|n IH]; intros s e b q oe; [reflexivity|]. cbn [decompose_loop_limited decompose_loop].
  destruct (at_end s e); [reflexivity|]. apply bind_ext. intros c _. destruct (truth c); [|reflexivity].
  apply bind_ext. intros [[s' cp]|] _; [|reflexivity]. rewrite depth_enough by exact L. apply bind_ext. intros [b' [q'|]] _; [apply IH|reflexivity].
Qed.
Lemma decompose_same limit depth s e b output oe : 4 <= limit -> (4 <= depth)%nat ->
  charstr_unicode_decompose_limited limit depth s e b output oe = charstr_unicode_decompose s e b output oe.
Proof.
  intros L D. unfold charstr_unicode_decompose_limited, charstr_unicode_decompose. rewrite decompose_loop_same by exact D.
  apply bind_ext. intros [b' [q|x]] _; [|reflexivity]. destruct (q =? oe); [reflexivity|]. apply bind_ext. intros b2 _.
  unfold sort_combining_characters_limited, sort_combining_characters. rewrite sort_loop_same by exact L. reflexivity.
Qed.

(** * Host names *)

Section Idna.
Variables (limit snippet_limit : Z) (depth : nat).
Variables (lib : library) (junk : nat -> Z).

(** The pointer that pass 1 returns is not before its argument. *)
Lemma pass1_step n : forall p e first k hh ascii nonascii count p' x1 x2 x3 x4 x5,
  pass1_loop lib n p e first k hh ascii nonascii count = Ok (Some (p', x1, x2, x3, x4, x5)) -> zlen p' <= zlen p.
Proof using lib junk.
  induction n as [|n IH]; intros p e first k hh ascii nonascii count p' x1 x2 x3 x4 x5; [discriminate|]. cbn [pass1_loop].
  destruct (if at_end p (Some e) then _ else _) as [dot| | |]; try discriminate. cbn [bind]. destruct dot; [intros E; injection E as <- _ _ _ _ _; lia|].
  destruct (charstr_decode_utf8_codepoint (Some p) (Some e)) as [[[p1 cp]|]| | |] eqn:D; try discriminate. cbn [bind]. apply decode_step in D.
  destruct (cp <? 128).
  - destruct (_ && _); [discriminate|]. destruct (wr ascii hh _) as [a| | |]; try discriminate. cbn [bind]. intros E. apply IH in E. lia.
  - destruct (if first then _ else _) as [mc| | |]; try discriminate. cbn [bind]. destruct mc; [discriminate|].
    destruct (record_nonascii cp nonascii count) as [[a c]| | |]; try discriminate. cbn [bind]. intros E. apply IH in E. lia.
Qed.
Lemma punycode_step input e b o size b' next n : punycode_encode lib junk input e b o size = Ok (b', Some (next, n)) -> zlen next <= zlen input.
Proof using lib junk.
  unfold punycode_encode. cbv zeta. destruct (_ <=? 0); [discriminate|].
  destruct (punycode_encode_pass1 _ _ _ _ _) as [[[[[[[p' x1] x2] x3] x4] x5]|]| | |] eqn:P; try discriminate. cbn [bind].
  assert (L : zlen p' <= zlen input).
  { unfold punycode_encode_pass1 in P. destruct (at_end _ _); [discriminate|]. destruct (cur input); try discriminate. cbn [bind] in P.
    destruct (_ =? 45); [discriminate|]. destruct (rd input _); try discriminate. cbn [bind] in P. destruct (_ =? 45); [discriminate|].
    exact (pass1_step _ _ _ _ _ _ _ _ _ _ _ _ _ _ _ P). }
  destruct (if truth x5 then _ else _) as [out| | |]; try discriminate. cbn [bind].
  destruct (emits out _ _) as [out2| | |]; try discriminate. cbn [bind]. destruct (negb (truth x5)).
  - destruct out2 as [[b2 o2] n2]. intros E. injection E as _ <- _. exact L.
  - destruct (if truth x3 then _ else _) as [out3| | |]; try discriminate. cbn [bind].
    destruct (punycode_encode_pass2 _ _ _ _ _ _ _) as [[[b4 o4] n4]| | |]; try discriminate. cbn [bind].
    destruct (_ >? _); [discriminate|]. intros E. injection E as _ <- _. exact L.
Qed.
Hypothesis Limit : 254 <= limit.
Hypothesis Snippet : 4 <= snippet_limit.
Hypothesis Depth : (4 <= depth)%nat.
Lemma encode_loop_same n : forall p e enc q size, zlen p - e <= 254 ->
  encode_loop_limited limit lib junk n p e enc q size = encode_loop lib junk n p e enc q size.
Proof using Limit Snippet Depth.
  induction n as [|n IH]; intros p e enc q size L; [reflexivity|]. cbn [encode_loop_limited encode_loop]. cbv zeta.
  unfold punycode_encode_limited. rewrite local_array_ok by lia. cbn [bind].
  apply bind_ext. intros [enc' [[p' n']|]] P; [|reflexivity]. apply punycode_step in P.
  apply bind_ext. intros _ _. destruct (_ >? _); [reflexivity|]. apply bind_ext. intros enc2 _.
  destruct (zlen p' - e >? 1) eqn:R; [|reflexivity]. apply IH. destruct p' as [|c p']; cbn [tl]; [lia|]. rewrite zlen_cons1 in *. lia.
Qed.
Lemma encode_nfc_same p e : encode_nfc_limited limit lib junk p e = encode_nfc lib junk p e.
Proof using Limit Snippet Depth.
  unfold encode_nfc_limited, encode_nfc. apply bind_ext. intros [[w q]|] _; [|reflexivity].
  unfold encode_filtered_limited, encode_filtered. destruct (_ >? MAX_DNS_NAME_LENGTH) eqn:L; [reflexivity|].
  unfold MAX_DNS_NAME_LENGTH in L. rewrite encode_loop_same by lia. reflexivity.
Qed.
Lemma encode_nfd_same r h errno p e : encode_nfd_limited limit lib junk r h errno p e = encode_nfd lib junk r h errno p e.
Proof using Limit Snippet Depth.
  unfold encode_nfd_limited, encode_nfd. cbv zeta. apply bind_ext. intros [w [q|x]] _; [apply encode_nfc_same|reflexivity].
Qed.
Lemma idna_encode_same r h errno s :
  idna_encode_limited limit snippet_limit depth lib junk r h errno s = idna_encode lib junk r h errno s.
Proof using Limit Snippet Depth.
  unfold idna_encode_limited, idna_encode. apply bind_ext. intros a _. destruct a; [reflexivity|].
  apply bind_ext. intros n _. cbv zeta. apply bind_ext. intros c _. destruct c; [apply encode_nfc_same|].
  apply bind_ext. intros d _. destruct d; [apply encode_nfd_same|]. rewrite decompose_same by assumption.
  apply bind_ext. intros [w [q|x]] _; [apply encode_nfd_same|reflexivity].
Qed.
End Idna.

(** * A library of a few codepoints is enough for examples *)

From Verif Require Import PunyLe IdnaEncodeProofs.
Section Le.
Variables (limit snippet_limit : Z) (depth : nat) (l1 l2 : library).
Hypothesis LE : lib_le l1 l2.
Ltac step :=
  match goal with
  | |- le ?x ?x => apply le_refl
  | |- le (bind _ _) (bind _ _) => apply le_bind; [|intros]
  | |- le (if ?b then _ else _) (if ?b then _ else _) => destruct b
  | |- le (match ?x with _ => _ end) (match ?x with _ => _ end) => destruct x
  end.
Lemma encode_loop_limited_le junk fuel : forall p end_ e q size,
  le (encode_loop_limited limit l1 junk fuel p end_ e q size) (encode_loop_limited limit l2 junk fuel p end_ e q size).
Proof using LE.
  induction fuel as [|fuel IH]; intros; [apply le_refl|]. cbn [encode_loop_limited]. unfold punycode_encode_limited.
  repeat first [apply IH|apply (punycode_encode_le _ _ LE)|step].
Qed.
Lemma encode_nfc_limited_le junk s end_ : le (encode_nfc_limited limit l1 junk s end_) (encode_nfc_limited limit l2 junk s end_).
Proof using LE. unfold encode_nfc_limited, encode_filtered_limited. repeat first [apply (nfc_loop_le _ _ LE)|apply encode_loop_limited_le|step]. Qed.
Lemma idna_encode_limited_le junk r h errno s :
  le (idna_encode_limited limit snippet_limit depth l1 junk r h errno s) (idna_encode_limited limit snippet_limit depth l2 junk r h errno s).
Proof using LE. unfold idna_encode_limited, encode_nfd_limited. repeat first [apply encode_nfc_limited_le|step]. Qed.
End Le.
Lemma few_encode_limited rows limit snippet_limit depth junk r h errno s x : few_right rows ->
  idna_encode_limited limit snippet_limit depth (few_library rows) junk r h errno s = x -> x <> UB ->
  charstr_idna_encode_limited limit snippet_limit depth junk r h errno s = x.
Proof.
  intros F E N. destruct (idna_encode_limited_le limit snippet_limit depth _ _ (few_le rows F) junk r h errno s) as [K|K]; [congruence|].
  unfold charstr_idna_encode_limited. congruence.
Qed.
