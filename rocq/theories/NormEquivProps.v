(** C89: the normalization functions decide canonical equivalence. *)
From Verif Require Import Base CMem CharstrModel CharstrSpec Utf8Model Utf8Spec UcdData NormModel NormSpec NormEquivSpec.
From Verif Require Import NormFacts NormOrder NormBytes NormDecompose NormRecompose NormMain NormEquiv.

#[local] Ltac scalars := repeat (constructor; [unfold scalar; lia|]); constructor.

(** Two valid strings have the same decomposition, byte for byte, if and only if they are
    canonically equivalent (three bytes of space for every byte are enough). *)
Theorem C89_decompose : forall s cps q e pre free post s' cps' q' e' pre' free' post',
  input s q e -> encodes s cps -> zlen free > 3 * zlen s ->
  input s' q' e' -> encodes s' cps' -> zlen free' > 3 * zlen s' ->
  exists out rest out' rest',
    charstr_unicode_decompose (s ++ q) e (pre ++ free ++ post) (zlen pre) (zlen pre + zlen free) =
      Ok (pre ++ out ++ 0 :: rest ++ post, inl (zlen pre + zlen out)) /\
    charstr_unicode_decompose (s' ++ q') e' (pre' ++ free' ++ post') (zlen pre') (zlen pre' + zlen free') =
      Ok (pre' ++ out' ++ 0 :: rest' ++ post', inl (zlen pre' + zlen out')) /\
    (out = out' <-> equivalent cps cps').
Proof.
  intros s cps q e pre free post s' cps' q' e' pre' free' post' I E L I' E' L'.
  destruct (nfd_exists cps) as (t & N & _). destruct (nfd_exists cps') as (t' & N' & _).
  pose proof (nfd_three s cps t E N). pose proof (nfd_three s' cps' t' E' N').
  destruct (decompose_fits s cps t q e pre free post I E N) as (rest & R & _); [lia|].
  destruct (decompose_fits s' cps' t' q' e' pre' free' post' I' E' N') as (rest' & R' & _); [lia|].
  exists (encoding t), rest, (encoding t'), rest'. split; [exact R|]. split; [exact R'|].
  rewrite <- (equivalent_iff cps cps' t t' N N'). split; [|intros ->; reflexivity].
  apply encoding_inj.
  - apply (nfd_total_bytes cps t); [eapply encodes_scalar; exact E|exact N].
  - apply (nfd_total_bytes cps' t'); [eapply encodes_scalar; exact E'|exact N'].
Qed.
Print Assumptions C89_decompose.

(** Whatever charstr_unicode_decompose returns is canonically equivalent to its argument,
    even where it leaves Hangul syllables alone for lack of space. *)
Theorem C89_decomposition_equivalent : forall s cps q e pre free post b n, input s q e -> encodes s cps ->
  charstr_unicode_decompose (s ++ q) e (pre ++ free ++ post) (zlen pre) (zlen pre + zlen free) = Ok (b, inl n) ->
  exists t rest, b = pre ++ encoding t ++ 0 :: rest ++ post /\ n = zlen pre + zlen (encoding t) /\ equivalent cps t.
Proof.
  intros s cps q e pre free post b n I E R. apply encodes_scanned in E.
  destruct (decompose_success s cps true q e pre free post b n I E R) as (_ & rs & t & rest & V & X & _ & Eb & En & _).
  exists t, rest. split; [exact Eb|]. split; [exact En|]. apply E_trans with (concat rs); [|apply exchanges_equivalent; exact X].
  clear - V. induction V as [|cp r cps rs H _ IH]; [apply E_refl|]. apply (equivalent_app [cp] r cps (concat rs)); [|exact IH].
  apply variant_piece in H as [H|[-> _]]; [apply (proj1 decomposed_equivalent); exact H|apply E_refl].
Qed.
Print Assumptions C89_decomposition_equivalent.

(** So is what charstr_unicode_recompose returns, for any valid string. [r] and [h] are
    the uninitialized local variables. *)
Theorem C89_recomposition_equivalent : forall s cps q e pre free post r h errno b n, input s q e -> encodes s cps -> zlen (r_ccs r) = 100 ->
  charstr_unicode_recompose r h (s ++ q) e (pre ++ free ++ post) (zlen pre) (zlen pre + zlen free) errno = Ok (b, inl n) ->
  exists t rest, b = pre ++ encoding t ++ 0 :: rest ++ post /\ n = zlen pre + zlen (encoding t) /\ equivalent cps t.
Proof.
  intros s cps q e pre free post r h errno b n I E R H. destruct (compose_exists cps) as (t & C & _).
  destruct (recompose_result s cps t q e pre free post r h errno I E C R) as (free' & o & H' & _ & O). rewrite H in H'. injection H' as -> <-.
  destruct O as (_ & _ & -> & rest & ->). exists t, rest. split; [rewrite <- app_assoc; reflexivity|]. split; [reflexivity|]. exact (compose_equivalent [] cps t C).
Qed.
Print Assumptions C89_recomposition_equivalent.

(** [out] is what a caller obtains who decomposes the string, with enough space, and
    recomposes the result, whatever the uninitialized local variables contain. *)
Definition recomposed (s q : list Z) (e : option Z) (out : list Z) : Prop :=
  exists free mid rest r h errno free2 rest2,
    zlen free > 3 * zlen s /\ zlen (r_ccs r) = 100 /\
    charstr_unicode_decompose (s ++ q) e free 0 (zlen free) = Ok (mid ++ 0 :: rest, inl (zlen mid)) /\
    charstr_unicode_recompose r h (mid ++ 0 :: rest) None free2 0 (zlen free2) errno = Ok (out ++ 0 :: rest2, inl (zlen out)).

(** Then two valid strings without U+0000 give the same bytes if and only if they are
    canonically equivalent. *)
Theorem C89_recompose : forall s cps q e out s' cps' q' e' out',
  input s q e -> encodes s cps -> ~ In 0 cps -> recomposed s q e out ->
  input s' q' e' -> encodes s' cps' -> ~ In 0 cps' -> recomposed s' q' e' out' ->
  (out = out' <-> equivalent cps cps').
Proof.
  assert (W : forall s cps q e out, input s q e -> encodes s cps -> ~ In 0 cps -> recomposed s q e out ->
    exists t, nfc cps t /\ Forall scalar t /\ out = encoding t).
  { intros s cps q e out I E Z (free & mid & rest & r & h & errno & free2 & rest2 & L & R & D & C).
    destruct (nfd_exists cps) as (t & N & _). pose proof (nfd_three s cps t E N).
    destruct (decompose_fits s cps t q e [] free [] I E N) as (rest' & K & _); [lia|].
    cbn [app] in K. rewrite !app_nil_r in K. change (zlen []) with 0 in K. rewrite !Z.add_0_l in K. rewrite D in K. injection K as K EL. apply same_prefix in K; [|exact EL]. subst mid.
    pose proof (encodes_scalar _ _ E) as F. destruct (nfd_text _ _ F Z N) as [S T].
    destruct (compose_exists t) as (v & V & _).
    destruct (recompose_result (encoding t) t v (0 :: rest) None [] free2 [] r h errno (text_input _ _ T) (encodes_encs _ S) V R) as (free' & o & H' & _ & O).
    cbn [app] in H'. rewrite !app_nil_r in H'. change (zlen []) with 0 in H'. rewrite !Z.add_0_l in H'. rewrite C in H'. injection H' as HE HO. rewrite <- HO in O. destruct O as (_ & _ & En & rest3 & ->).
    exists v. split; [exists t; auto|]. split; [apply compose_composed in V; subst v; apply composed_scalar; exact S|].
    change (zlen []) with 0 in En. rewrite Z.add_0_l in En. eapply same_prefix; eassumption. }
  intros s cps q e out s' cps' q' e' out' I E Z R I' E' Z' R'.
  destruct (W _ _ _ _ _ I E Z R) as (t & N & S & ->). destruct (W _ _ _ _ _ I' E' Z' R') as (t' & N' & S' & ->).
  rewrite <- (equivalent_iff_nfc cps cps' t t' N N'). split; [apply encoding_inj; assumption|intros ->; reflexivity].
Qed.
Print Assumptions C89_recompose.

(** And it does give a result, unless some character is followed by more than 100
    combining characters in NFC. *)
Theorem C89_recompose_exists : forall s cps q e, input s q e -> encodes s cps -> ~ In 0 cps -> ~ (exists t, nfc cps t /\ crowded t) ->
  exists out, recomposed s q e out.
Proof.
  intros s cps q e I E Z NC. destruct (nfd_exists cps) as (t & N & _). pose proof (nfd_three s cps t E N). set (free := repeat 0 (Z.to_nat (3 * zlen s + 1))).
  assert (L : zlen free = 3 * zlen s + 1) by (unfold free, zlen; rewrite repeat_length; fold (zlen s); pose proof (zlen_nonneg s); unfold zlen in *; lia).
  destruct (decompose_fits s cps t q e [] free [] I E N) as (rest & K & _); [lia|]. cbn [app] in K. rewrite !app_nil_r in K. change (zlen []) with 0 in K. rewrite !Z.add_0_l in K.
  pose proof (encodes_scalar _ _ E) as F. destruct (nfd_text _ _ F Z N) as [S T]. destruct (compose_exists t) as (v & V & _).
  set (r := mk_recomposer RECOMPOSER_TERMINATED 0 (repeat 0 100) 0 0). set (h := mk_hangul HANGUL_RECOMPOSER_STARTED 0).
  destruct (recompose_result (encoding t) t v (0 :: rest) None [] free [] r h 0 (text_input _ _ T) (encodes_encs _ S) V eq_refl) as (free' & o & H' & _ & O).
  cbn [app] in H'. rewrite !app_nil_r in H'. change (zlen []) with 0 in *. rewrite ?Z.add_0_l in *. destruct o as [n|err].
  - destruct O as (_ & _ & -> & rest3 & ->). exists (encoding v), free, (encoding t), rest, r, h, 0, free, rest3. split; [lia|]. split; [reflexivity|]. split; [exact K|exact H'].
  - exfalso. pose proof (compose_shrinks (encoding t) t v (encodes_encs _ S) V). destruct O as [[_ O]|[_ O]]; [lia|]. apply NC. exists v. split; [exists t; auto|exact O].
Qed.
Print Assumptions C89_recompose_exists.

(** Angstrom sign, A with ring and A followed by a ring are equivalent; so are marks in a
    different order. Marks of the same class must not be exchanged. *)
Example C89_example :
  equivalent [0x212B] [0x41; 0x30A] /\ equivalent [0x212B] [0xC5] /\ equivalent [0x61; 0x301; 0x323] [0x61; 0x323; 0x301] /\
  ~ equivalent [0x61; 0x301; 0x300] [0x61; 0x300; 0x301] /\ equivalent [0xAC00; 0x11A8] [0xAC01] /\
  encodes [0xE2; 0x84; 0xAB] [0x212B].
Proof.
  assert (H : forall s s' t, nfd s t -> nfd s' t -> equivalent s s') by (intros s s' t N N'; apply (equivalent_iff s s' t t N N'); reflexivity).
  split; [apply (H _ _ [0x41; 0x30A]); apply nfd_iff; vm_compute; reflexivity|].
  split; [apply (H _ _ [0x41; 0x30A]); apply nfd_iff; vm_compute; reflexivity|].
  split; [apply (H _ _ [0x61; 0x323; 0x301]); apply nfd_iff; vm_compute; reflexivity|].
  split. { intros K. apply (equivalent_iff _ _ [0x61; 0x301; 0x300] [0x61; 0x300; 0x301]) in K; [discriminate K| |]; apply nfd_iff; vm_compute; reflexivity. }
  split; [apply (H _ _ [0x1100; 0x1161; 0x11A8]); apply nfd_iff; vm_compute; reflexivity|].
  apply (encodes_encs [0x212B]). scalars.
Qed.
