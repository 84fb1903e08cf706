(** charstr_unicode_recompose. *)
From Verif Require Import Base CMem CharstrModel CharstrSpec CharstrProofs Utf8Model Utf8Spec Utf8Proofs.
From Verif Require Import UcdData NormModel NormSpec NormTables NormFacts NormOrder NormBytes NormDecompose.
From Coq Require Import ZifyBool ZifyNat.

#[local] Opaque decomposition_data ccc_data exclusion_data nfc_qc_data nfd_qc_data.
Arguments _charstr_unicode_primary_composite : simpl never.

(** * Crowded strings *)

(** A starter followed by more than 100 combining characters. *)
Definition crowd (s : list Z) : Prop :=
  exists pre l mid post, s = pre ++ l :: mid ++ post /\ ccc l = 0 /\ Forall nonstarter mid /\ zlen mid > 100.
Lemma prefix_before_starter mid : forall post a x m, Forall nonstarter mid -> ccc x = 0 -> mid ++ post = a ++ x :: m -> exists post', a = mid ++ post'.
Proof.
  induction mid as [|y mid IH]; intros post a x m F X E; [exists a; reflexivity|]. inversion_clear F as [|? ? F1 F2]. destruct a as [|z a]; cbn [app] in E.
  - injection E as -> _. destruct (F1 X).
  - injection E as -> E. destruct (IH _ _ _ _ F2 X E) as (post' & ->). exists post'. reflexivity.
Qed.
Lemma crowd_split a : forall x m, ccc x = 0 -> Forall nonstarter m -> crowd (a ++ x :: m) -> crowd a \/ zlen m > 100.
Proof.
  induction a as [|y a IH]; intros x m X M (pre & l & mid & post & E & L & F & Z).
  - cbn [app] in E. destruct pre as [|p pre]; cbn [app] in E.
    + injection E as _ ->. rewrite zlen_app. pose proof (zlen_nonneg post). right. lia.
    + injection E as _ ->. apply Forall_app in M as [_ M]. inversion_clear M as [|? ? M1 _]. destruct (M1 L).
  - destruct pre as [|p pre]; cbn [app] in E.
    + injection E as -> E. symmetry in E. destruct (prefix_before_starter _ _ _ _ _ F X E) as (post' & ->). left. exists [], l, mid, post'. auto.
    + injection E as -> E. destruct (IH x m X M) as [(pre' & l' & mid' & post' & -> & R)|G]; [exists pre, l, mid, post; auto| |right; exact G].
      left. exists (p :: pre'), l', mid', post'. split; [reflexivity|exact R].
Qed.
Lemma crowd_app a b : crowd a -> crowd (a ++ b).
Proof. intros (pre & l & mid & post & -> & R). exists pre, l, mid, (post ++ b). split; [rewrite <- !app_assoc; cbn; rewrite <- app_assoc; reflexivity|exact R]. Qed.

(** Crowding in states of the composition *)
Definition crowded_state (st : cstate) : Prop :=
  match st with CI _ => False | CS pre l mid => crowd pre \/ zlen mid > 100 end.
Lemma crowded_state_flat st : cwf st -> (crowded_state st <-> crowd (cflat st)).
Proof.
  destruct st as [out|pre l mid]; cbn [crowded_state cwf cflat].
  - intros F. split; [tauto|]. intros (pre & l & mid & post & -> & L & _). apply Forall_app in F as [_ F]. inversion_clear F as [|? ? F1 _]. destruct (F1 L).
  - intros [L M]. split.
    + intros [C|Z]; [apply crowd_app; exact C|]. exists pre, l, mid, []. rewrite app_nil_r. auto.
    + apply crowd_split; assumption.
Qed.
Lemma crowded_keep pre l mid c : ccc l = 0 -> Forall nonstarter mid -> crowded_state (CS pre l mid) -> crowded_state (ckeep pre l mid c).
Proof.
  intros L M C. unfold ckeep. destruct (ccc c =? 0).
  - left. apply (crowded_state_flat (CS pre l mid)); [split; assumption|exact C].
  - destruct C as [C|C]; [left; exact C|right]. rewrite zlen_snoc. lia.
Qed.
Lemma crowded_step st c : cwf st -> crowded_state st -> crowded_state (cst st c).
Proof.
  destruct st as [out|pre l mid]; [intros _ []|]. intros [L M] C. unfold cst. cbn [cstep]. destruct (cblocked mid c); [apply crowded_keep; assumption|].
  destruct (join l c); [exact C|apply crowded_keep; assumption].
Qed.
Lemma crowded_fold s : forall st, cwf st -> crowded_state st -> crowd (cflat (fold_left cst s st)).
Proof.
  induction s as [|c s IH]; intros st W C; [apply crowded_state_flat; assumption|]. cbn [fold_left]. apply IH; [apply cst_wf; exact W|apply crowded_step; assumption].
Qed.

Lemma uncrowded_step st c : cwf st -> ~ crowded_state st ->
  match st with CI _ => True | CS _ _ mid => ccc c = 0 \/ zlen mid < 100 end -> ~ crowded_state (cst st c).
Proof.
  destruct st as [out|pre l mid]; unfold cst; cbn [cstep].
  - intros W _ _. destruct (ccc c =? 0); cbn [crowded_state]; [|tauto]. intros [C|C]; [|change (zlen (@nil Z)) with 0 in C; lia].
    apply (crowded_state_flat (CI out)) in C; [exact C|exact W].
  - intros W N D. assert (K : ~ crowded_state (ckeep pre l mid c)).
    { unfold ckeep. destruct (ccc c =? 0) eqn:E; cbn [crowded_state].
      - intros [C|C]; [|change (zlen (@nil Z)) with 0 in C; lia]. apply N. apply crowded_state_flat; [exact W|exact C].
      - rewrite zlen_snoc. intros [C|C]; [apply N; left; exact C|lia]. }
    destruct (cblocked mid c); [exact K|]. destruct (join l c); [exact N|exact K].
Qed.
(** A character is either composed or kept. *)
Lemma cst_cases pre l mid c : (exists y, cst (CS pre l mid) c = CS pre y mid) \/ cst (CS pre l mid) c = ckeep pre l mid c.
Proof. unfold cst. cbn [cstep]. destruct (cblocked mid c); [right; reflexivity|]. destruct (join l c) as [y|]; [left; exists y; reflexivity|right; reflexivity]. Qed.

(** * The Hangul pass *)

Definition settled (hs : option (list Z * Z)) : list Z := match hs with None => [] | Some (out, _) => out end.
Definition hrel (h : hangul_recomposer) (hs : option (list Z * Z)) : Prop :=
  match hs with
  | None => h_state h = HANGUL_RECOMPOSER_INIT
  | Some (_, n) => h_state h = HANGUL_RECOMPOSER_STARTED /\ h_next h = n
  end.
Definition hscalar (hs : option (list Z * Z)) : Prop := Forall scalar (hflat hs).
Lemma hstep_scalar hs c : hscalar hs -> scalar c -> hscalar (hstep hs c).
Proof.
  intros H S. destruct hs as [[out n]|]; unfold hscalar in *; cbn [hstep hflat] in *; [|constructor; [exact S|constructor]].
  apply Forall_app in H as [H1 H2]. destruct (hg n c) as [p|] eqn:E; cbn [hflat].
  - apply Forall_app. split; [exact H1|]. constructor; [|constructor]. destruct (hg_hangul _ _ _ E) as (_ & _ & Y). unfold is_syllable in Y. unfold scalar. lia.
  - apply Forall_app. split; [apply Forall_app; auto|]. constructor; [exact S|constructor].
Qed.
Lemma hfold_scalar l : forall hs, hscalar hs -> Forall scalar l -> hscalar (fold_left hstep l hs).
Proof. induction l as [|c l IH]; intros hs H F; [exact H|]. inversion_clear F. cbn [fold_left]. apply IH; [apply hstep_scalar; assumption|assumption]. Qed.
Lemma settled_scalar hs : hscalar hs -> Forall scalar (settled hs).
Proof. destruct hs as [[out n]|]; cbn; intros H; [|constructor]. apply Forall_app in H. tauto. Qed.
Lemma settled_step hs c : exists w, settled (hstep hs c) = settled hs ++ w.
Proof. destruct hs as [[out n]|]; cbn; [|exists []; reflexivity]. destruct (hg n c); cbn; [exists []; rewrite app_nil_r; reflexivity|exists [n]; reflexivity]. Qed.
Lemma settled_fold l : forall hs, exists w, settled (fold_left hstep l hs) = settled hs ++ w.
Proof.
  induction l as [|c l IH]; intros hs; [exists []; rewrite app_nil_r; reflexivity|]. cbn [fold_left]. destruct (IH (hstep hs c)) as (w & ->).
  destruct (settled_step hs c) as (w' & ->). exists (w' ++ w). rewrite <- app_assoc. reflexivity.
Qed.
Lemma settled_total l hs : total (settled hs) <= total (hflat (fold_left hstep l hs)).
Proof.
  destruct (settled_fold l hs) as (w & E). assert (G : total (settled (fold_left hstep l hs)) <= total (hflat (fold_left hstep l hs))).
  { destruct (fold_left hstep l hs) as [[out n]|]; cbn [settled hflat]; [|change (total []) with 0; lia]. rewrite total_app. pose proof (total_nonneg [n]). lia. }
  rewrite E, total_app in G. pose proof (total_nonneg w). lia.
Qed.
Lemma hangul_feed_ok h hs c : hrel h hs -> hscalar hs ->
  exists h' o, hangul_recomposer_feed h c = Ok (h', o) /\ hrel h' (hstep hs c) /\
    ((o = -1 /\ settled (hstep hs c) = settled hs) \/ (scalar o /\ settled (hstep hs c) = settled hs ++ [o])).
Proof.
  intros H S. unfold hangul_recomposer_feed. destruct hs as [[out n]|]; cbn [hrel hstep settled] in *.
  - destruct H as [-> ->]. unfold hg. change L_BASE with 0x1100. change V_BASE with 0x1161. change L_COUNT with 19. change V_COUNT with 21.
    change S_BASE with 0xAC00. change T_BASE with 0x11A7. change S_COUNT with (19 * 21 * 28). change T_COUNT with 28.
    replace ((n - 0x1100 >=? 0) && (n - 0x1100 <? 19) && ((c - 0x1161 >=? 0) && (c - 0x1161 <? 21)))
      with ((0x1100 <=? n) && (n <? 0x1100 + 19) && ((0x1161 <=? c) && (c <? 0x1161 + 21))) by lia.
    destruct (_ && _) eqn:E1.
    + eexists _, (-1). split; [reflexivity|]. cbn [hrel settled]. split; [split; reflexivity|]. left. auto.
    + clear E1. replace ((n - 0xAC00 >=? 0) && (n - 0xAC00 <? 19 * 21 * 28) && negb (truth ((n - 0xAC00) mod 28)) && ((c - 0x11A7 >? 0) && (c - 0x11A7 <? 28)))
        with (is_syllable n && ((n - 0xAC00) mod 28 =? 0) && ((0x11A7 <? c) && (c <? 0x11A7 + 28))) by (unfold is_syllable, truth; lia).
      destruct (_ && _ && _).
      * eexists _, (-1). split; [reflexivity|]. cbn [hrel settled]. split; [split; reflexivity|]. left. auto.
      * eexists _, n. split; [reflexivity|]. cbn [hrel settled]. split; [split; reflexivity|]. right. split; [|reflexivity].
        unfold hscalar in S. cbn [hflat] in S. apply Forall_app in S as [_ S]. inversion S. assumption.
  - rewrite H. eexists _, (-1). split; [reflexivity|]. split; [split; reflexivity|]. left. auto.
Qed.

(** * Delivery *)

(** Reading [rem] from [r] leaves [r'], with errno [e']. *)
Inductive pend : recomposer -> list Z -> recomposer -> Z -> Prop :=
| P_end r r' e' : (forall errno, recomposer_read r errno = Ok (r', -1, e')) -> pend r [] r' e'
| P_more r c r1 rem r' e' : (forall errno, recomposer_read r errno = Ok (r1, c, errno)) -> scalar c -> pend r1 rem r' e' -> pend r (c :: rem) r' e'.

(** The output after [hs] *)
Definition written (pre post : list Z) (cap : Z) (hs : option (list Z * Z)) (b : list Z) (q : Z) : Prop :=
  exists rest, b = pre ++ encs (settled hs) ++ rest ++ post /\ total (settled hs) + zlen rest = cap /\ q = zlen pre + total (settled hs).
Definition same_size (pre post : list Z) (cap : Z) (b : list Z) : Prop := exists free, b = pre ++ free ++ post /\ zlen free = cap.
Lemma written_size pre post cap hs b q : hscalar hs -> written pre post cap hs b q -> same_size pre post cap b.
Proof.
  intros S (rest & -> & E & _). exists (encs (settled hs) ++ rest). rewrite <- app_assoc. split; [reflexivity|]. rewrite zlen_app, encs_zlen by (apply settled_scalar; exact S). exact E.
Qed.
Lemma scalar_nonneg c : scalar c -> 0 <= c.
Proof. unfold scalar. lia. Qed.
Lemma write_one pre post cap hs hs' b q c : hscalar hs -> scalar c -> settled hs' = settled hs ++ [c] -> written pre post cap hs b q ->
  exists b' o, charstr_encode_utf8_codepoint c b (Some q) (Some (zlen pre + cap)) = Ok (b', o) /\
    match o with Some q' => written pre post cap hs' b' q' | None => total (settled hs') > cap /\ same_size pre post cap b' end.
Proof.
  intros S Sc E (rest & -> & L & ->). pose proof (settled_scalar _ S) as Ss. pose proof (encs_zlen _ Ss) as Le.
  assert (S1 : Forall scalar [c]) by (constructor; [exact Sc|constructor]). rewrite encode_puts.
  replace (enc c) with (wrote [c]) by (unfold wrote; cbn [flat_map]; apply app_nil_r).
  replace (pre ++ encs (settled hs) ++ rest ++ post) with ((pre ++ encs (settled hs)) ++ rest ++ post) by (rewrite <- app_assoc; reflexivity).
  replace (zlen pre + total (settled hs)) with (zlen (pre ++ encs (settled hs))) by (rewrite zlen_app; lia).
  replace (zlen pre + cap) with (zlen (pre ++ encs (settled hs)) + zlen rest) by (rewrite zlen_app; lia).
  destruct (Z_le_gt_dec (total [c]) (zlen rest)) as [LE|G].
  - destruct (puts_room (pre ++ encs (settled hs)) rest post _ S1 LE) as (rest' & -> & Lr). eexists _, _. split; [reflexivity|]. cbn beta iota.
    exists rest'. rewrite E, encs_app, total_app, zlen_app, <- !app_assoc. split; [reflexivity|]. split; lia.
  - destruct (puts_no_room (pre ++ encs (settled hs)) rest post _ S1 G) as (rest' & -> & Lr). eexists _, _. split; [reflexivity|]. cbn beta iota.
    rewrite E, total_app. split; [lia|]. exists (encs (settled hs) ++ rest'). rewrite <- !app_assoc. split; [reflexivity|]. rewrite zlen_app. lia.
Qed.
Lemma deliver_ok pre post cap r rem r' e' : pend r rem r' e' -> forall c fuel h hs b q errno,
  (length rem + 1 < fuel)%nat -> scalar c -> hrel h hs -> hscalar hs -> written pre post cap hs b q ->
  exists b' err o, deliver fuel c r h b q (zlen pre + cap) errno = Ok (b', err, o) /\
    let hs' := fold_left hstep (c :: rem) hs in
    match o with
    | Some (r2, h2, q2) => r2 = r' /\ err = e' /\ hrel h2 hs' /\ hscalar hs' /\ written pre post cap hs' b' q2
    | None => err = EOVERFLOW /\ total (settled hs') > cap /\ same_size pre post cap b'
    end.
Proof.
  induction 1 as [r r' e' R|r c1 r1 rem r' e' R S1 _ IH]; intros c fuel h hs b q errno F Sc H HS W;
    (destruct fuel as [|fuel]; [lia|]); cbn [deliver]; pose proof (scalar_nonneg _ Sc); replace (c >=? 0) with true by lia;
    destruct (hangul_feed_ok h hs c H HS) as (h' & o & -> & H' & O); cbn [bind]; pose proof (hstep_scalar _ _ HS Sc) as HS'.
  - assert (T : exists b1 o1, (if o >=? 0 then charstr_encode_utf8_codepoint o b (Some q) (Some (zlen pre + cap)) else Ok (b, Some q)) = Ok (b1, o1) /\
      match o1 with Some q' => written pre post cap (hstep hs c) b1 q' | None => total (settled (hstep hs c)) > cap /\ same_size pre post cap b1 end).
    { destruct O as [[-> E]|[So E]].
      - exists b, (Some q). split; [reflexivity|]. unfold written in *. rewrite E. exact W.
      - pose proof (scalar_nonneg _ So). replace (o >=? 0) with true by lia. apply (write_one pre post cap hs); assumption. }
    destruct T as (b1 & o1 & -> & T). cbn [bind]. destruct o1 as [q1|].
    + rewrite R. cbn [bind]. destruct fuel as [|fuel]; [cbn in F; lia|]. cbn [deliver]. change (-1 >=? 0) with false. cbn iota.
      eexists _, _, _. split; [reflexivity|]. cbn. auto.
    + eexists _, _, _. split; [reflexivity|]. cbn. tauto.
  - assert (T : exists b1 o1, (if o >=? 0 then charstr_encode_utf8_codepoint o b (Some q) (Some (zlen pre + cap)) else Ok (b, Some q)) = Ok (b1, o1) /\
      match o1 with Some q' => written pre post cap (hstep hs c) b1 q' | None => total (settled (hstep hs c)) > cap /\ same_size pre post cap b1 end).
    { destruct O as [[-> E]|[So E]].
      - exists b, (Some q). split; [reflexivity|]. unfold written in *. rewrite E. exact W.
      - pose proof (scalar_nonneg _ So). replace (o >=? 0) with true by lia. apply (write_one pre post cap hs); assumption. }
    destruct T as (b1 & o1 & -> & T). cbn [bind]. destruct o1 as [q1|].
    + rewrite R. cbn [bind]. destruct (IH c1 fuel h' (hstep hs c) b1 q1 errno) as (b2 & err & o2 & -> & Q); try assumption; [cbn in F; lia|].
      exists b2, err, o2. split; [reflexivity|exact Q].
    + eexists _, _, _. split; [reflexivity|]. cbn zeta iota. split; [reflexivity|]. split; [|tauto].
      change (fold_left hstep (c :: c1 :: rem) hs) with (fold_left hstep (c1 :: rem) (hstep hs c)).
      destruct (settled_fold (c1 :: rem) (hstep hs c)) as (w & ->). rewrite total_app. pose proof (total_nonneg w). lia.
Qed.
(** The combining characters are delivered in order. *)
Lemma pend_delivering rem : forall r done junk, r_state r = RECOMPOSER_DELIVERING -> r_ccs r = done ++ rem ++ junk ->
  r_rd r = zlen done -> r_wr r = zlen done + zlen rem -> Forall scalar rem ->
  exists r', pend r rem r' EAGAIN /\ r_state r' = RECOMPOSER_STARTED /\ r_wr r' = 0 /\ r_starter r' = r_starter r /\ r_ccs r' = r_ccs r.
Proof.
  induction rem as [|c rem IH]; intros r done junk St C Rd Wr S.
  - eexists. split; [constructor; intros errno; unfold recomposer_read; rewrite St; change (zlen (@nil Z)) with 0 in Wr;
      replace (r_rd r >=? r_wr r) with true by lia; reflexivity|]. cbn. auto.
  - inversion_clear S as [|? ? Sc Sr]. rewrite zlen_cons in Wr. pose proof (zlen_nonneg rem).
    destruct (IH (set_rd (r_rd r + 1) r) (done ++ [c]) junk) as (r' & P & Q); cbn; try assumption.
    + rewrite C, <- app_assoc. reflexivity.
    + rewrite zlen_snoc. lia.
    + rewrite zlen_snoc. lia.
    + exists r'. split; [|exact Q]. econstructor; [|exact Sc|exact P]. intros errno. unfold recomposer_read. rewrite St. replace (r_rd r >=? r_wr r) with false by lia.
      rewrite C. cbn [app]. rewrite rd_app by exact Rd. reflexivity.
Qed.
Lemma pend_terminated rem : forall r done junk, r_state r = RECOMPOSER_DELIVERING_TERMINATED -> r_ccs r = done ++ rem ++ junk ->
  r_rd r = zlen done -> r_wr r = zlen done + zlen rem -> Forall scalar rem ->
  exists r', pend r rem r' ENODATA.
Proof.
  induction rem as [|c rem IH]; intros r done junk St C Rd Wr S.
  - eexists. constructor; intros errno; unfold recomposer_read; rewrite St; change (zlen (@nil Z)) with 0 in Wr;
      replace (r_rd r >=? r_wr r) with true by lia; reflexivity.
  - inversion_clear S as [|? ? Sc Sr]. rewrite zlen_cons in Wr. pose proof (zlen_nonneg rem).
    destruct (IH (set_rd (r_rd r + 1) r) (done ++ [c]) junk) as (r' & P); cbn; try assumption.
    + rewrite C, <- app_assoc. reflexivity.
    + rewrite zlen_snoc. lia.
    + rewrite zlen_snoc. lia.
    + exists r'. econstructor; [|exact Sc|exact P]. intros errno. unfold recomposer_read. rewrite St. replace (r_rd r >=? r_wr r) with false by lia.
      rewrite C. cbn [app]. rewrite rd_app by exact Rd. reflexivity.
Qed.

(** * The first pass *)

Definition emitted (st : cstate) : list Z := match st with CI out => out | CS pre _ _ => pre end.
Definition rrel (r : recomposer) (st : cstate) : Prop :=
  zlen (r_ccs r) = 100 /\
  match st with
  | CI _ => r_state r = RECOMPOSER_INIT
  | CS _ l mid => r_state r = RECOMPOSER_STARTED /\ r_starter r = l /\ r_wr r = zlen mid /\ exists junk, r_ccs r = mid ++ junk
  end.
Lemma blocked_from_ok mid : forall done junk c, blocked_from (length mid) (done ++ mid ++ junk) (zlen done) (ccc c) = Ok (cblocked mid c).
Proof.
  induction mid as [|m mid IH]; intros done junk c; [reflexivity|]. cbn [length blocked_from app]. rewrite rd_app by reflexivity. cbn [bind].
  unfold cblocked. cbn [existsb]. destruct (ccc m >=? ccc c); [reflexivity|]. cbn [orb].
  replace (done ++ m :: mid ++ junk) with ((done ++ [m]) ++ mid ++ junk) by (rewrite <- app_assoc; reflexivity).
  replace (zlen done + 1) with (zlen (done ++ [m])) by (rewrite zlen_snoc; lia). apply IH.
Qed.
Lemma blocked_ok mid junk c : recomposer_blocked (mid ++ junk) (zlen mid) (ccc c) = Ok (cblocked mid c).
Proof. unfold recomposer_blocked. rewrite zlen_to_nat. apply (blocked_from_ok mid []). Qed.

(** Everything about the states before a codepoint is fed *)
Definition inv (pre post : list Z) (cap : Z) (st1 st : cstate) (r : recomposer) (h : hangul_recomposer) (b : list Z) (q : Z) : Prop :=
  cwf st1 /\ cwf st /\ two st1 st /\ Forall scalar (cflat st1) /\ ~ crowded_state st /\ rrel r st1 /\
  hrel h (fold_left hstep (emitted st1) None) /\ hscalar (fold_left hstep (emitted st1) None) /\
  written pre post cap (fold_left hstep (emitted st1) None) b q.

Lemma cstep_tb_scalar st c : Forall scalar (cflat st) -> scalar c -> Forall scalar (cflat (cstep tb st c)).
Proof.
  intros F S. assert (K : forall pre l mid, Forall scalar (pre ++ l :: mid) -> Forall scalar (cflat (ckeep pre l mid c))).
  { intros pre l mid K. rewrite ckeep_flat. apply Forall_app. auto. }
  destruct st as [out|pre l mid]; cbn [cstep cflat] in *.
  - destruct (ccc c =? 0); cbn [cflat]; apply Forall_app; auto.
  - destruct (cblocked mid c); [apply K, F|]. destruct (tb l c) as [p|] eqn:J; [|apply K, F]. cbn [cflat].
    apply Forall_app in F as [F1 F2]. inversion_clear F2. apply Forall_app. split; [exact F1|]. constructor; [|assumption].
    apply (join_scalar l c p). unfold join. rewrite J. reflexivity.
Qed.
Lemma composite_tb l c : tb l c = if _charstr_unicode_primary_composite l c >=? 0 then Some (_charstr_unicode_primary_composite l c) else None.
Proof. reflexivity. Qed.
(** The output of the first pass is final. *)
Lemma emitted_step st c : exists w, emitted (cstep tb st c) = emitted st ++ w.
Proof.
  destruct st as [out|pre l mid]; cbn [cstep emitted].
  - destruct (ccc c =? 0); cbn [emitted]; [exists []; rewrite app_nil_r; reflexivity|exists [c]; reflexivity].
  - assert (K : exists w, emitted (ckeep pre l mid c) = pre ++ w).
    { unfold ckeep. destruct (ccc c =? 0); cbn [emitted]; [exists (l :: mid); reflexivity|exists []; rewrite app_nil_r; reflexivity]. }
    destruct (cblocked mid c); [exact K|]. destruct (tb l c); [exists []; cbn; rewrite app_nil_r; reflexivity|exact K].
Qed.
Lemma emitted_fold s : forall st, exists w, cflat (fold_left (cstep tb) s st) = emitted st ++ w.
Proof.
  induction s as [|c s IH]; intros st; cbn [fold_left].
  - destruct st as [out|pre l mid]; cbn; [exists []; rewrite app_nil_r; reflexivity|eexists; reflexivity].
  - destruct (IH (cstep tb st c)) as (w & ->). destruct (emitted_step st c) as (w' & ->). exists (w' ++ w). rewrite <- app_assoc. reflexivity.
Qed.
Lemma two_final s : forall st1 st, cwf st1 -> two st1 st -> hpass (cflat (fold_left (cstep tb) s st1)) = cflat (fold_left cst s st).
Proof.
  induction s as [|c s IH]; intros st1 st W T; [apply two_flat; assumption|]. cbn [fold_left]. apply IH.
  - apply cstep_wf; [exact tb_starter|exact W].
  - apply two_step; assumption.
Qed.
(** If what has been emitted does not fit, the result does not fit. *)
Lemma emitted_overflow s st1 st cap : cwf st1 -> two st1 st -> total (settled (fold_left hstep (emitted st1) None)) > cap ->
  total (cflat (fold_left cst s st)) > cap.
Proof.
  intros W T G. rewrite <- (two_final s st1 st W T). destruct (emitted_fold s st1) as (w & ->). unfold hpass. rewrite fold_left_app.
  pose proof (settled_total w (fold_left hstep (emitted st1) None)). lia.
Qed.

(** One codepoint *)
Lemma feed_ok pre post cap st1 st r h b q c errno : inv pre post cap st1 st r h b q -> scalar c ->
  exists r1 cp1 e1 b' err o, recomposer_feed r c errno = Ok (r1, cp1, e1) /\ deliver deliver_fuel cp1 r1 h b q (zlen pre + cap) e1 = Ok (b', err, o) /\
    match o with
    | Some (r2, h2, q2) =>
        (err = EAGAIN /\ inv pre post cap (cstep tb st1 c) (cst st c) r2 h2 b' q2) \/
        (err = ENOBUFS /\ crowded_state (cst st c) /\ same_size pre post cap b')
    | None => err = EOVERFLOW /\ total (settled (fold_left hstep (emitted (cstep tb st1 c)) None)) > cap /\ same_size pre post cap b'
    end.
Proof.
  intros (W1 & W & T & F & NC & R & H & HS & WR) Sc.
  assert (W1' : cwf (cstep tb st1 c)) by (apply cstep_wf; [exact tb_starter|exact W1]).
  pose proof (cst_wf _ c W) as W'. pose proof (two_step _ _ c W1 T) as T'. pose proof (cstep_tb_scalar _ _ F Sc) as F'.
  assert (D : forall r errno, deliver deliver_fuel (-1) r h b q (zlen pre + cap) errno = Ok (b, errno, Some (r, h, q))) by reflexivity.
  destruct st1 as [out|p l mid]; cbn [two] in T.
  - destruct st as [out'|]; [subst out'|tauto]. destruct R as [Rl R]. cbn [cstep emitted cwf cflat] in *. unfold recomposer_feed. rewrite R. unfold cst in *. cbn [cstep] in *.
    unfold truth. destruct (ccc c =? 0) eqn:E; cbn [negb].
    + eexists _, _, _, _, _, _. split; [reflexivity|]. split; [apply D|]. left. split; [reflexivity|].
      unfold inv. repeat (split; [assumption|]). split.
      { pose proof (uncrowded_step (CI out) c W NC I) as U. unfold cst in U. cbn [cstep] in U. rewrite E in U. exact U. }
      split; [|split; [exact H|split; [exact HS|exact WR]]]. unfold rrel. cbn. split; [exact Rl|]. repeat split; auto. exists (r_ccs r). reflexivity.
    + eexists _, _, _. 
      assert (P : pend r [] r EAGAIN). { constructor. intros errno'. unfold recomposer_read. rewrite R. reflexivity. }
      destruct (deliver_ok pre post cap r [] r EAGAIN P c deliver_fuel h _ b q errno ltac:(cbn; lia) Sc H HS WR) as (b' & err & o & E' & O).
      exists b', err, o. split; [reflexivity|]. split; [exact E'|]. cbn zeta in O. cbn [fold_left] in O.
      replace (hstep (fold_left hstep out None) c) with (fold_left hstep (out ++ [c]) None) in O by (rewrite fold_left_app; reflexivity).
      destruct o as [[[r2 h2] q2]|]; [|exact O]. destruct O as (-> & -> & O1 & O2 & O3). left. split; [reflexivity|].
      unfold inv. cbn [emitted crowded_state]. repeat (split; [assumption|]). split; [split; [exact Rl|exact R]|]. auto.
  - destruct st as [|p' x mid']; [tauto|]. destruct T as [<- T0]. destruct R as (Rl & R1 & R2 & R3 & junk & R4). destruct W1 as [L M]. cbn [emitted] in *.
    cbn [crowded_state] in NC. assert (NZ : ~ zlen mid > 100) by tauto.
    unfold recomposer_feed. rewrite R1, R2, R3, R4, blocked_ok. cbn [bind].
    (* keep *)
    assert (K : forall errno, cstep tb (CS p l mid) c = ckeep p l mid c ->
      exists r1 cp1 e1 b' err o,
        (if truth (ccc c) then
           if zlen mid >=? MAX_CC_SEQ_LENGTH then Ok (r, -1, ENOBUFS)
           else ccs <- wr (mid ++ junk) (zlen mid) c ;; Ok (set_wr (zlen mid + 1) (set_ccs ccs r), -1, EAGAIN)
         else Ok (set_rd 0 (set_state RECOMPOSER_DELIVERING (set_starter c r)), l, errno)) = Ok (r1, cp1, e1) /\
        deliver deliver_fuel cp1 r1 h b q (zlen pre + cap) e1 = Ok (b', err, o) /\
        match o with
        | Some (r2, h2, q2) =>
            (err = EAGAIN /\ inv pre post cap (cstep tb (CS p l mid) c) (cst (CS p' x mid) c) r2 h2 b' q2) \/
            (err = ENOBUFS /\ crowded_state (cst (CS p' x mid) c) /\ same_size pre post cap b')
        | None => err = EOVERFLOW /\ total (settled (fold_left hstep (emitted (cstep tb (CS p l mid) c)) None)) > cap /\ same_size pre post cap b'
        end).
    { intros errno0 K1. rewrite K1 in *. unfold truth. destruct (ccc c =? 0) eqn:E; cbn [negb].
      - assert (Sm : Forall scalar mid). { cbn [cflat] in F. apply Forall_app in F as [_ F]. inversion F. assumption. }
        assert (Sl : scalar l). { cbn [cflat] in F. apply Forall_app in F as [_ F]. inversion F. assumption. }
        destruct (pend_delivering mid (set_rd 0 (set_state RECOMPOSER_DELIVERING (set_starter c r))) [] junk eq_refl R4 eq_refl R3 Sm) as (r' & P & Q1 & Q2 & Q3 & Q4).
        eexists _, _, _.
        destruct (deliver_ok pre post cap _ mid r' EAGAIN P l deliver_fuel h _ b q errno0 ltac:(unfold deliver_fuel, MAX_CC_SEQ_LENGTH, zlen in *; lia) Sl H HS WR) as (b' & err & o & E' & O).
        exists b', err, o. split; [reflexivity|]. split; [exact E'|]. cbn zeta in O. rewrite <- fold_left_app in O. unfold ckeep in *. rewrite E in *. cbn [emitted].
        destruct o as [[[r2 h2] q2]|]; [|exact O]. destruct O as (-> & -> & O1 & O2 & O3). left. split; [reflexivity|].
        unfold inv. cbn [emitted]. split; [exact W1'|]. split; [exact W'|]. split; [exact T'|]. split; [exact F'|]. split.
        + apply uncrowded_step; [exact W|exact NC|left; lia].
        + split; [|auto]. unfold rrel. rewrite Q4, Q1, Q2, Q3. cbn. split; [exact Rl|]. repeat split; auto. exists (r_ccs r). reflexivity.
      - unfold MAX_CC_SEQ_LENGTH. destruct (zlen mid >=? 100) eqn:G.
        + eexists _, _, _, _, _, _. split; [reflexivity|]. split; [apply D|]. right. split; [reflexivity|]. split.
          * destruct (cst_cases p' x mid c) as [[y E2]|E2]; rewrite E2 in *; unfold ckeep in *; rewrite E in *; [|right; rewrite zlen_snoc; lia].
            cbn [two] in T'. destruct T' as [T' _]. apply (f_equal zlen) in T'. rewrite zlen_snoc in T'. lia.
          * eapply written_size; eassumption.
        + destruct junk as [|j junk]; [rewrite R4, app_nil_r in Rl; lia|]. rewrite wr_app by reflexivity. cbn [bind].
          eexists _, _, _, _, _, _. split; [reflexivity|]. split; [apply D|]. left. split; [reflexivity|]. unfold inv.
          split; [exact W1'|]. split; [exact W'|]. split; [exact T'|]. split; [exact F'|]. unfold ckeep. rewrite E. cbn [emitted]. split.
          * apply uncrowded_step; [exact W|exact NC|right; lia].
          * split; [|auto]. unfold rrel. cbn. rewrite R4, zlen_app, zlen_cons in Rl. split; [rewrite zlen_app, zlen_cons; exact Rl|].
            split; [exact R1|]. split; [exact R2|]. split; [rewrite zlen_snoc; lia|]. exists junk. rewrite <- app_assoc. reflexivity. }
    destruct (cblocked mid c) eqn:B.
    + change (-1 >=? 0) with false. cbn iota. apply K. cbn [cstep]. rewrite B. reflexivity.
    + pose proof (composite_tb l c) as TB. destruct (_charstr_unicode_primary_composite l c >=? 0) eqn:E.
      * eexists _, _, _, _, _, _. split; [reflexivity|]. split; [apply D|]. left. split; [reflexivity|].
        assert (E1 : cstep tb (CS p l mid) c = CS p (_charstr_unicode_primary_composite l c) mid) by (cbn [cstep]; rewrite B, TB; reflexivity).
        rewrite E1 in *. unfold inv. split; [exact W1'|]. split; [exact W'|]. split; [exact T'|]. split; [exact F'|]. cbn [emitted]. split.
        -- destruct (cst_cases p' x mid c) as [[y E2]|E2]; [rewrite E2; exact NC|]. destruct (ccc c =? 0) eqn:C0; [apply uncrowded_step; [exact W|exact NC|left; lia]|].
           exfalso. rewrite E2 in T'. unfold ckeep in T'. rewrite C0 in T'. cbn [two] in T'. destruct T' as [T' _]. apply (f_equal zlen) in T'. rewrite zlen_snoc in T'. lia.
        -- split; [|auto]. unfold rrel. cbn. split; [exact Rl|]. split; [exact R1|]. split; [reflexivity|]. split; [exact R3|]. exists junk. exact R4.
      * apply K. cbn [cstep]. rewrite B, TB. reflexivity.
Qed.

(** All codepoints *)
Lemma recompose_loop_ok s cps ok : scanned s cps ok -> forall q e, input s q e -> forall fuel pre post cap st1 st r h b p errno, (length s < fuel)%nat ->
  inv pre post cap st1 st r h b p ->
  exists b' err o, recompose_loop fuel (s ++ q) e r h b p (zlen pre + cap) errno = Ok (b', err, o) /\
    match o with
    | Some (r2, h2, p2) => ok = true /\ inv pre post cap (fold_left (cstep tb) cps st1) (fold_left cst cps st) r2 h2 b' p2
    | None => same_size pre post cap b' /\
        ((err = EILSEQ /\ ok = false) \/ (err = EOVERFLOW /\ total (cflat (fold_left cst cps st)) > cap) \/ (err = ENOBUFS /\ crowd (cflat (fold_left cst cps st))))
    end.
Proof.
  induction 1 as [|c s N|bs cp s cps ok A H IH]; intros q e I fuel pre post cap st1 st r h b p errno F V; (destruct fuel as [|fuel]; [lia|]); cbn [recompose_loop].
  - exists b, errno, (Some (r, h, p)). cbn [app fold_left]. split; [|split; [reflexivity|exact V]].
    destruct (head_nil _ _ I) as [->|[-> E]]; [reflexivity|]. rewrite E. reflexivity.
  - destruct (head_bad _ _ _ _ N I) as (-> & -> & Tc & ->). cbn [bind]. rewrite Tc. cbn [bind]. exists b, EILSEQ, None. split; [reflexivity|]. split; [|auto].
    unfold inv in V. eapply written_size; apply V.
  - destruct (head_good _ _ _ _ _ A I) as (c & -> & -> & Tc & -> & I'). cbn [bind]. rewrite Tc. cbn [bind].
    destruct (feed_ok pre post cap st1 st r h b p cp errno V (proj2 A)) as (r1 & cp1 & e1 & b1 & err & o & -> & D & O). cbn [bind]. rewrite D. cbn [bind fold_left].
    destruct V as (W1 & W & T & _). destruct o as [[[r2 h2] q2]|].
    + destruct O as [[-> V]|(-> & C & Z)].
      * change (EAGAIN =? EAGAIN) with true. cbn iota. apply IH; [exact I'| |exact V]. pose proof (pattern_length _ _ (proj1 A)). rewrite app_length in F. lia.
      * change (ENOBUFS =? EAGAIN) with false. cbn iota. eexists _, _, _. split; [reflexivity|]. split; [exact Z|]. right. right. split; [reflexivity|].
        apply crowded_fold; [apply cst_wf; exact W|exact C].
    + destruct O as (-> & G & Z). eexists _, _, _. split; [reflexivity|]. split; [exact Z|]. right. left. split; [reflexivity|].
      eapply emitted_overflow; [| |exact G].
      * apply cstep_wf; [exact tb_starter|exact W1].
      * apply two_step; assumption.
Qed.

(** The whole function *)
Lemma recompose_ok s cps ok q e pre free post r h errno : scanned s cps ok -> input s q e -> zlen (r_ccs r) = 100 ->
  exists free' o, charstr_unicode_recompose r h (s ++ q) e (pre ++ free ++ post) (zlen pre) (zlen pre + zlen free) errno = Ok (pre ++ free' ++ post, o) /\
    zlen free' = zlen free /\
    match o with
    | inl n => ok = true /\ ~ crowd (composed cps) /\ total (composed cps) < zlen free /\
        exists rest, free' = encs (composed cps) ++ 0 :: rest /\ n = zlen pre + total (composed cps)
    | inr err => (err = EILSEQ /\ ok = false) \/ (err = EOVERFLOW /\ total (composed cps) >= zlen free) \/ (err = ENOBUFS /\ crowd (composed cps))
    end.
Proof.
  intros S I R. unfold charstr_unicode_recompose. set (cap := zlen free).
  assert (V : inv pre post cap (CI []) (CI []) (init_recomposer r) (init_hangul_recomposer h) (pre ++ free ++ post) (zlen pre)).
  { unfold inv. cbn [cwf two cflat crowded_state emitted fold_left]. repeat (split; [constructor|]). split; [tauto|]. split; [split; [exact R|reflexivity]|].
    split; [reflexivity|]. split; [constructor|]. exists free. cbn. split; [reflexivity|]. split; [reflexivity|]. lia. }
  destruct (recompose_loop_ok s cps ok S q e I (Datatypes.S (length (s ++ q))) pre post cap _ _ _ _ _ _ errno ltac:(rewrite app_length; lia) V) as (b1 & err & o & -> & O). cbn [bind]. fold (composed cps) in O.
  destruct o as [[[r2 h2] p2]|]; [|destruct O as ((free' & -> & L) & O); exists free', (inr err); split; [reflexivity|]; split; [exact L|]; intuition lia].
  destruct O as [Ok' (W1 & W & T & F & NC & Rr & H & HS & WR)].
  pose proof (two_passes cps) as TP. set (st1 := fold_left (cstep tb) cps (CI [])) in *.
  assert (NC' : ~ crowd (composed cps)). { intros C. apply NC. apply crowded_state_flat; assumption. }
  (* the first pass is delivered *)
  assert (D : exists r3 cp1 e1 b2 err2 o2, recomposer_terminate r2 err = Ok (r3, cp1, e1) /\
    deliver deliver_fuel cp1 r3 h2 b1 p2 (zlen pre + cap) e1 = Ok (b2, err2, o2) /\
    let hs := fold_left hstep (cflat st1) None in
    match o2 with
    | Some (_, h3, p3) => err2 = ENODATA /\ hrel h3 hs /\ hscalar hs /\ written pre post cap hs b2 p3
    | None => err2 = EOVERFLOW /\ total (settled hs) > cap /\ same_size pre post cap b2
    end).
  { destruct st1 as [out|p l mid].
    - destruct Rr as [_ Rr]. unfold recomposer_terminate. rewrite Rr. eexists _, _, _, _, _, _. split; [reflexivity|]. split; [reflexivity|]. cbn. auto.
    - destruct Rr as (Rl & R1 & R2 & R3 & junk & R4). cbn [cflat emitted] in *. apply Forall_app in F as [_ F]. inversion_clear F as [|? ? Sl Sm].
      unfold recomposer_terminate. rewrite R1.
      destruct (pend_terminated mid (set_rd 0 (set_state RECOMPOSER_DELIVERING_TERMINATED r2)) [] junk eq_refl R4 eq_refl R3 Sm) as (r' & P).
      assert (Lm : zlen mid <= 100). { rewrite R4, zlen_app in Rl. pose proof (zlen_nonneg junk). lia. }
      destruct (deliver_ok pre post cap _ mid r' ENODATA P l deliver_fuel h2 _ b1 p2 err ltac:(unfold deliver_fuel, MAX_CC_SEQ_LENGTH, zlen in *; lia) Sl H HS WR) as (b' & err' & o & E' & O).
      rewrite R2. eexists _, _, _, _, _, _. split; [reflexivity|]. split; [exact E'|]. cbn zeta in *. rewrite fold_left_app.
      destruct o as [[[r4 h4] q4]|]; tauto. }
  destruct D as (r3 & cp1 & e1 & b2 & err2 & o2 & -> & D & O2). cbn [bind]. rewrite D. cbn [bind]. cbn zeta in O2.
  unfold hpass in TP. set (hs := fold_left hstep (cflat st1) None) in *.
  assert (TS : total (settled hs) <= total (composed cps)). { rewrite <- TP. apply (settled_total [] hs). }
  destruct o2 as [[[r4 h4] p4]|]; [|destruct O2 as (-> & G & (free' & -> & L)); exists free', (inr EOVERFLOW); split; [reflexivity|]; split; [exact L|]; right; left; split; [reflexivity|lia]].
  destruct O2 as (-> & H4 & HS4 & W4). change (negb (ENODATA =? ENODATA)) with false. cbn iota.
  assert (SC : Forall scalar (composed cps)) by (rewrite <- TP; exact HS4).
  (* then the last character of the second *)
  assert (D2 : exists h5 cp5, hangul_recomposer_terminate h4 = Ok (h5, cp5) /\ exists b3 o3,
    (if cp5 >=? 0 then charstr_encode_utf8_codepoint cp5 b2 (Some p4) (Some (zlen pre + cap)) else Ok (b2, Some p4)) = Ok (b3, o3) /\
    match o3 with
    | Some p5 => exists rest, b3 = pre ++ encs (composed cps) ++ rest ++ post /\ total (composed cps) + zlen rest = cap /\ p5 = zlen pre + total (composed cps)
    | None => total (composed cps) > cap /\ same_size pre post cap b3
    end).
  { unfold hangul_recomposer_terminate. destruct hs as [[out n]|]; cbn [hrel hflat] in *.
    - destruct H4 as [-> ->]. eexists _, n. split; [reflexivity|]. assert (Sn : scalar n). { unfold hscalar in HS4. cbn [hflat] in HS4. apply Forall_app in HS4 as [_ X]. inversion X. assumption. }
      pose proof (scalar_nonneg _ Sn). replace (n >=? 0) with true by lia.
      destruct (write_one pre post cap (Some (out, n)) (Some (out ++ [n], n)) b2 p4 n HS4 Sn eq_refl W4) as (b3 & o3 & -> & O3). exists b3, o3. split; [reflexivity|].
      unfold written in O3. cbn [settled] in O3. rewrite TP in O3. exact O3.
    - rewrite H4. eexists _, (-1). split; [reflexivity|]. exists b2, (Some p4). split; [reflexivity|]. rewrite <- TP. exact W4. }
  destruct D2 as (h5 & cp5 & -> & b3 & o3 & D2 & O3). cbn [bind]. rewrite D2. cbn [bind]. destruct o3 as [p5|].
  - destruct O3 as (rest & -> & L & ->). pose proof (encs_zlen _ SC) as LE. destruct rest as [|x rest].
    + change (zlen (@nil Z)) with 0 in L. replace (_ =? _) with true by lia. exists (encs (composed cps)), (inr EOVERFLOW). split; [reflexivity|]. split; [lia|]. right. left. split; [reflexivity|lia].
    + rewrite zlen_cons in L. pose proof (zlen_nonneg rest). replace (_ =? _) with false by lia.
      replace (pre ++ encs (composed cps) ++ (x :: rest) ++ post) with ((pre ++ encs (composed cps)) ++ x :: rest ++ post) by (rewrite <- app_assoc; reflexivity).
      rewrite wr_app by (rewrite zlen_app; lia). cbn [bind]. exists (encs (composed cps) ++ 0 :: rest). eexists. split; [rewrite <- !app_assoc; reflexivity|].
      rewrite zlen_app, zlen_cons. split; [lia|]. cbn beta iota. split; [exact Ok'|]. split; [exact NC'|]. split; [lia|]. exists rest. auto.
  - destruct O3 as (G & (free' & -> & L)). exists free', (inr EOVERFLOW). split; [reflexivity|]. split; [exact L|]. right. left. split; [reflexivity|lia].
Qed.
