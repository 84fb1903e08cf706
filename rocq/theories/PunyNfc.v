(** Host names: encode_nfc and encode_nfd *)
From Verif Require Import Base CMem CharstrModel CharstrSpec CharstrProofs Utf8Model Utf8Spec Utf8Proofs UcdData NormModel NormSpec NormTables NormFacts NormOrder NormBytes NormDecompose NormRecompose NormMain.
From Verif Require Import CategoryModel PunyModel PunySpec PunyProofs PunyPass PunyHost PunyName.
From Coq Require Import ZifyBool ZifyNat.
#[local] Opaque decomposition_data ccc_data exclusion_data nfc_qc_data nfd_qc_data.

Section Nfc.
Variable lib : library.
Variable spacing_mark : Z -> bool.
Hypothesis category_ok : forall c, 128 <= c -> exists k, unicode_category_of lib c = Ok k /\ category_eqb k Mc = spacing_mark c.
Variable junk : nat -> Z.

(** What the library does with a codepoint: [None] if it is refused *)
Inductive treats (c : Z) : option (list Z) -> Prop :=
| T_valid : is_valid lib c = Ok true -> treats c (Some [c])
| T_deviation : is_valid lib c = Ok false -> is_deviation lib c = Ok true -> treats c (Some [c])
| T_ignored : is_valid lib c = Ok false -> is_deviation lib c = Ok false -> is_ignored lib c = Ok true -> treats c (Some [])
| T_mapped l : is_valid lib c = Ok false -> is_deviation lib c = Ok false -> is_ignored lib c = Ok false -> is_mapped lib c = Ok true ->
    mapping lib c = Ok (Some (encs l)) -> Forall scalar l -> Forall nonzero l -> treats c (Some l)
| T_refused : is_valid lib c = Ok false -> is_deviation lib c = Ok false -> is_ignored lib c = Ok false -> is_mapped lib c = Ok false ->
    treats c None.
Variable image : Z -> option (list Z).
Hypothesis image_ok : forall c, scalar c -> treats c (image c).

Fixpoint images (cps : list Z) : option (list Z) :=
  match cps with
  | [] => Some []
  | c :: cps =>
      match image c, images cps with
      | Some l, Some m => Some (l ++ m)
      | _, _ => None
      end
  end.
Lemma image_scalar c l : scalar c -> image c = Some l -> Forall scalar l.
Proof. intros S E. pose proof (image_ok c S) as T. rewrite E in T. inversion T; subst; auto. Qed.
Lemma images_scalar cps : forall l, Forall scalar cps -> images cps = Some l -> Forall scalar l.
Proof.
  induction cps as [|c cps IH]; intros l F E; cbn [images] in E.
  - injection E as <-. constructor.
  - inversion_clear F as [|? ? F1 F2]. destruct (image c) as [a|] eqn:Ei; [|discriminate]. destruct (images cps) as [b|]; [|discriminate].
    injection E as <-. apply Forall_app. split; [exact (image_scalar c a F1 Ei)|auto].
Qed.

(** One codepoint: the block has room for [free], and one more byte. *)
Lemma step_ok c pre free post : scalar c -> zlen pre + zlen free = 254 ->
  exists r,
  (valid <- is_valid lib c ;;
   keep <- (if valid : bool then Ok true else is_deviation lib c) ;;
   (if keep : bool then
      r <- charstr_encode_utf8_codepoint c (pre ++ free ++ post) (Some (zlen pre)) (Some 254) ;; Ok (Some r)
    else
      ignored <- is_ignored lib c ;;
      if ignored : bool then Ok (Some (pre ++ free ++ post, Some (zlen pre)))
      else
        mapped <- is_mapped lib c ;;
        if mapped : bool then
          m <- mapping lib c ;;
          r <- safecopy (option_map (fun m => m ++ [0]) m) (pre ++ free ++ post) (Some (zlen pre)) 254 ;; Ok (Some r)
        else Ok None)) = Ok r /\
  match image c with
  | None => r = None
  | Some l => if zlen (encs l) <=? zlen free then exists free', r = Some (pre ++ encs l ++ free' ++ post, Some (zlen pre + zlen (encs l))) /\
                 zlen free' = zlen free - zlen (encs l)
              else exists b, r = Some (b, None)
  end.
Proof.
  intros S L.
  assert (Keep : exists r, (r <- charstr_encode_utf8_codepoint c (pre ++ free ++ post) (Some (zlen pre)) (Some 254) ;; Ok (Some r)) = Ok r /\
    if zlen (encs [c]) <=? zlen free then exists free', r = Some (pre ++ encs [c] ++ free' ++ post, Some (zlen pre + zlen (encs [c]))) /\
                 zlen free' = zlen free - zlen (encs [c])
              else exists b, r = Some (b, None)).
  { rewrite encode_puts. assert (Forall scalar [c]) as F by (constructor; [exact S|constructor]).
    assert (enc c = wrote [c]) as -> by (unfold wrote; cbn; rewrite app_nil_r; reflexivity). rewrite <- L.
    rewrite (encs_zlen [c] F). destruct (total [c] <=? zlen free) eqn:E.
    - destruct (puts_room pre free post [c] F) as (free' & -> & L'); [lia|]. eexists. split; [reflexivity|]. exists free'. split; [reflexivity|exact L'].
    - destruct (puts_no_room pre free post [c] F) as (free' & -> & L'); [lia|]. eexists. split; [reflexivity|]. eexists. reflexivity. }
  destruct (image_ok c S) as [V|V D|V D I|l V D I M Ml Sl Nl|V D I M]; rewrite V; cbn [bind]; try rewrite D; cbn [bind]; try rewrite I; cbn [bind]; try rewrite M; cbn [bind].
  - exact Keep.
  - exact Keep.
  - eexists. split; [reflexivity|]. change (encs []) with (@nil Z). change (zlen (@nil Z)) with 0. pose proof (zlen_nonneg free).
    replace (0 <=? zlen free) with true by lia. exists free. split; [|lia]. cbn [app]. rewrite Z.add_0_r. reflexivity.
  - rewrite Ml. cbn [bind option_map safecopy].
    rewrite strlen_ok by (apply text_no_nul, encs_text; assumption). cbn [bind].
    pose proof (zlen_nonneg pre). pose proof (zlen_nonneg free).
    replace (u64 (254 - zlen pre)) with (zlen free) by (unfold u64; rewrite Z.mod_small; lia).
    pose proof (zlen_nonneg (encs l)). destruct (zlen (encs l) <=? zlen free) eqn:E.
    + replace (zlen (encs l) >? zlen free) with false by lia. rewrite firstn_zlen.
      destruct (split_firstn free (zlen (encs l))) as (a & b & -> & Ea); [lia|]. rewrite <- !app_assoc.
      rewrite blit_app by (try reflexivity; exact Ea). cbn [bind]. eexists. split; [reflexivity|]. exists b. split; [reflexivity|]. rewrite zlen_app. lia.
    + replace (zlen (encs l) >? zlen free) with true by lia. eexists. split; [reflexivity|]. eexists. reflexivity.
  - eexists. split; reflexivity.
Qed.

Lemma nfc_loop_ok p cps ok : scanned p cps ok -> bytes p -> forall q fuel pre free post, (List.length (p ++ q) < fuel)%nat -> zlen pre + zlen free = 254 ->
  match images cps with
  | Some l =>
      if ok && (zlen (encs l) <=? zlen free) then
        exists free', nfc_loop lib fuel (p ++ q) (zlen q) (pre ++ free ++ post) (zlen pre) 254 =
          Ok (Some (pre ++ encs l ++ free' ++ post, zlen pre + zlen (encs l)))
      else nfc_loop lib fuel (p ++ q) (zlen q) (pre ++ free ++ post) (zlen pre) 254 = Ok None
  | None => nfc_loop lib fuel (p ++ q) (zlen q) (pre ++ free ++ post) (zlen pre) 254 = Ok None
  end.
Proof.
  induction 1 as [|c s N|bs cp s cps ok A Sc IH]; intros B q fuel pre free post Hf L; (destruct fuel as [|fuel]; [lia|]); cbn [nfc_loop].
  - cbn [images app at_end]. rewrite Z.eqb_refl. change (encs []) with (@nil Z). change (zlen (@nil Z)) with 0. pose proof (zlen_nonneg free).
    replace (0 <=? zlen free) with true by lia. cbn [andb]. exists free. cbn [app]. rewrite Z.add_0_r. reflexivity.
  - cbn [images andb]. unfold at_end. replace (zlen ((c :: s) ++ q) =? zlen q) with false by (rewrite zlen_app, zlen_cons; pose proof (zlen_nonneg s); lia).
    rewrite decode_ok by (try exact B; left; reflexivity). destruct (dec (c :: s)) as [[u cp]|] eqn:D; [|reflexivity].
    exfalso. destruct (dec_sound _ _ _ B D) as (bs & E & A). apply N. eauto.
  - assert (bytes bs /\ bytes s) as [B1 B2] by (apply bytes_app; exact B). specialize (IH B2).
    unfold at_end. replace (zlen ((bs ++ s) ++ q) =? zlen q) with false
      by (rewrite !zlen_app; pose proof (pattern_length _ _ (proj1 A)); pose proof (zlen_nonneg s); unfold zlen in *; lia).
    rewrite decode_ok by (try exact B; left; reflexivity). rewrite (dec_complete _ _ _ A). cbn [lift option_map fst snd bind].
    destruct (step_ok cp pre free post (proj2 A) L) as (r & Er & Hr).
    match type of Er with ?a = _ => set (x := a) in Er end.
    match goal with |- context [is_valid lib cp] => idtac end.
    assert (K : forall k : option (list Z * option Z) -> res (option (list Z * Z)),
      (valid <- is_valid lib cp ;;
       keep <- (if valid : bool then Ok true else is_deviation lib cp) ;;
       r <- (if keep : bool then
               r <- charstr_encode_utf8_codepoint cp (pre ++ free ++ post) (Some (zlen pre)) (Some 254) ;; Ok (Some r)
             else
               ignored <- is_ignored lib cp ;;
               if ignored : bool then Ok (Some (pre ++ free ++ post, Some (zlen pre)))
               else
                 mapped <- is_mapped lib cp ;;
                 if mapped : bool then
                   m <- mapping lib cp ;;
                   r <- safecopy (option_map (fun m => m ++ [0]) m) (pre ++ free ++ post) (Some (zlen pre)) 254 ;; Ok (Some r)
                 else Ok None) ;; k r) = k r).
    { intros k. subst x. destruct (is_valid lib cp) as [v| | |]; cbn [bind] in Er |- *; try discriminate.
      destruct (if v then Ok true else is_deviation lib cp) as [d| | |]; cbn [bind] in Er |- *; try discriminate.
      rewrite Er. reflexivity. }
    rewrite K. clear K x Er.
    cbn [images]. destruct (image cp) as [l|].
    + assert (List.length (s ++ q) < fuel)%nat as Hf' by (pose proof (pattern_length _ _ (proj1 A)); rewrite !app_length in *; lia).
      destruct (zlen (encs l) <=? zlen free) eqn:E.
      * destruct Hr as (free' & -> & L').
        specialize (IH q fuel (pre ++ encs l) free' post Hf' ltac:(rewrite zlen_app; lia)).
        rewrite <- !app_assoc in IH. rewrite zlen_app in IH.
        destruct (images cps) as [m|]; [|exact IH]. rewrite encs_app, zlen_app.
        replace (zlen (encs l) + zlen (encs m) <=? zlen free) with (zlen (encs m) <=? zlen free') by lia.
        destruct (ok && (zlen (encs m) <=? zlen free')); [|exact IH].
        destruct IH as (f & ->). exists f. rewrite <- !app_assoc. rewrite Z.add_assoc. reflexivity.
      * destruct Hr as (b & ->). destruct (images cps) as [m|]; [|reflexivity]. rewrite encs_app, zlen_app. pose proof (zlen_nonneg (encs m)).
        replace (zlen (encs l) + zlen (encs m) <=? zlen free) with false by lia. rewrite andb_false_r. reflexivity.
    + rewrite Hr. reflexivity.
Qed.

(** The result for the mapped codepoints *)
Definition answer (cps : list Z) (res : res (option (list Z))) : Prop :=
  if zlen (encs cps) >? 254 then res = Ok None
  else if zlen cps =? 0 then res = UB
  else exists ls es, labels cps ls /\ Forall2 (fun l e => fine_label spacing_mark l = true -> ace l e) ls es /\
    res =
    match judge spacing_mark (ends_hyphen cps) 0 ls es with
    | Good => Ok (Some (join_dots es ++ [0]))
    | Refused => Ok None
    | Crash => Abort
    end.
Definition outcome (cps : list Z) (res : res (option (list Z))) : Prop :=
  match images cps with
  | None => res = Ok None
  | Some l => answer l res
  end.

Lemma encode_nfc_ok p cps ok q : scanned p cps ok -> bytes p ->
  if ok then outcome cps (encode_nfc lib junk (p ++ q) (zlen q)) else encode_nfc lib junk (p ++ q) (zlen q) = Ok None.
Proof.
  intros Sc B. unfold encode_nfc, outcome, answer. change MAX_DNS_NAME_LENGTH with 254. change (254 + 1) with 255.
  pose proof (fresh_block_zlen junk 255 ltac:(lia)) as F. destruct (split_firstn (fresh_block junk 255) 254) as (a & b & E & La); [rewrite F; lia|].
  rewrite E. rewrite E, zlen_app in F. pose proof (nfc_loop_ok p cps ok Sc B q (S (List.length (p ++ q))) [] a b ltac:(lia) La) as H.
  cbn [app] in H. change (zlen (@nil Z)) with 0 in H. cbn [Z.add] in H.
  pose proof (scanned_scalar _ _ _ Sc) as S.
  destruct (images cps) as [l|] eqn:Ei.
  - pose proof (images_scalar cps l S Ei) as Sl. destruct ok; cbn [andb] in H; [|rewrite H; reflexivity].
    destruct (zlen (encs l) <=? zlen a) eqn:E1.
    + destruct H as (free' & ->). cbn [bind]. replace (zlen (encs l ++ free' ++ b) - zlen (encs l)) with (zlen (free' ++ b)) by (rewrite !zlen_app; lia).
      pose proof (encode_filtered_ok lib spacing_mark category_ok junk l (free' ++ b) Sl) as K.
      replace (zlen (encs l) >? 254) with false in * by lia. exact K.
    + rewrite H. replace (zlen (encs l) >? 254) with true by lia. reflexivity.
  - rewrite H. destruct ok; reflexivity.
Qed.

Variables (r : recomposer) (h : hangul_recomposer) (errno : Z).
Hypothesis r_size : zlen (r_ccs r) = 100.

(** Recomposition, when the input has a NUL at its end or the end is given *)
Lemma encode_nfd_ok s cps t q n : input s q (Some n) -> encodes s cps -> compose [] cps t -> n <= zlen q ->
  (~ crowded t /\ outcome t (encode_nfd lib junk r h errno (s ++ q) n)) \/
  (crowded t /\ encode_nfd lib junk r h errno (s ++ q) n = Ok None).
Proof.
  intros I E C Ln. unfold encode_nfd. rewrite zlen_app.
  pose proof (zlen_nonneg s). pose proof (zlen_nonneg q).
  set (w := fresh_block junk (zlen s + zlen q - n + 1)).
  assert (zlen w = zlen s + zlen q - n + 1) as Lw by (apply fresh_block_zlen; lia).
  destruct (recompose_result s cps t q (Some n) [] w [] r h errno I E C r_size) as (free' & o & R & Lf & O).
  cbn [app] in R. rewrite !app_nil_r in R. change (zlen (@nil Z)) with 0 in R, O. cbn [Z.add] in R, O. rewrite Lw in R. rewrite R. cbn [bind].
  pose proof (compose_shrinks s cps t E C) as Sh.
  assert (Forall scalar t) as St.
  { apply compose_composed in C. subst t. apply composed_scalar. eapply encodes_scalar; eauto. }
  destruct o as [m|err].
  - left. destruct O as (NC & _ & -> & rest & ->). split; [exact NC|].
    rewrite zlen_app. replace (zlen (encs t) + zlen (0 :: rest) - zlen (encs t)) with (zlen (0 :: rest)) by lia.
    apply (encode_nfc_ok (encs t) t true (0 :: rest)); [apply encodes_scanned, encodes_encs; exact St|apply encs_bytes; exact St].
  - right. destruct O as [(_ & K)|(_ & K)]; [lia|]. split; [exact K|reflexivity].
Qed.
Lemma encode_nfd_bad s q n : input s q (Some n) -> (~ exists cps, encodes s cps) -> n <= zlen q ->
  encode_nfd lib junk r h errno (s ++ q) n = Ok None.
Proof.
  intros I E Ln. unfold encode_nfd. rewrite zlen_app.
  pose proof (zlen_nonneg s). pose proof (zlen_nonneg q).
  set (w := fresh_block junk (zlen s + zlen q - n + 1)).
  assert (zlen w = zlen s + zlen q - n + 1) as Lw by (apply fresh_block_zlen; lia).
  destruct (recompose_bad s q (Some n) [] w [] r h errno I E r_size) as (free' & err & R & _).
  cbn [app] in R. rewrite !app_nil_r in R. change (zlen (@nil Z)) with 0 in R. cbn [Z.add] in R. rewrite Lw in R. rewrite R. reflexivity.
Qed.
End Nfc.
