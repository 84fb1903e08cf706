(** charstr_detect_unicode_normal_form is the quick check of UAX #15. *)
From Verif Require Import Base CMem CharstrModel CharstrSpec CharstrProofs Utf8Model Utf8Spec Utf8Proofs UcdData NormModel NormSpec.
From Verif Require Import NormTables NormFacts NormOrder NormBytes NormMain NormDetect NormFitSpec NormFit NormQuickSpec.
From Coq Require Import ZifyBool.

(** No codepoint has two values. *)
Definition apart (rows : list (Z * Z * bool)) : bool :=
  forallb (fun '(a, b, _) => forallb (fun '(c, d, v) => v || (b <? c) || (d <? a)) rows) (filter (fun '(_, _, v) => v) rows).
Lemma apart_check : forallb (fun '(_, _, rows) => apart rows) forms = true.
Proof. vm_compute. reflexivity. Qed.
Lemma row_apart rows cp : apart rows = true -> row rows cp true -> row rows cp false -> False.
Proof.
  unfold apart. intros A (a & b & I & H) (c & d & J & K). rewrite forallb_forall in A.
  assert (In (a, b, true) (filter (fun '(_, _, v) => v) rows)) as F by (apply filter_In; auto). specialize (A _ F). cbv beta iota in A.
  pose proof (proj1 (forallb_forall _ _) A _ J) as L. cbv beta iota in L. lia.
Qed.
Lemma row_value rows cp v : apart rows = true -> row rows cp v <-> qc_value rows cp = Some v.
Proof.
  intros A. split.
  - intros R. destruct (qc_value rows cp) as [w|] eqn:E.
    + apply qc_row in E as (a & b & I & H). assert (row rows cp w) as Rw by (exists a, b; auto).
      destruct v, w; [reflexivity|destruct (row_apart rows cp A); assumption|destruct (row_apart rows cp A); assumption|reflexivity].
    + exfalso. apply (qc_covered rows cp) in E; [exact E|]. destruct R as (a & b & I & H). exists a, b, v. auto.
  - intros E. apply qc_row in E as (a & b & I & H). exists a, b. auto.
Qed.

(** The flags of the generated function. *)
Lemma flags_value d m rows cp : In (d, m, rows) forms ->
  (dis d cp = true <-> qc_value rows cp = Some true) /\ (dis m cp = true <-> qc_value rows cp = Some false).
Proof.
  intros I. unfold dis, charstr_allowed_unicode_normal_forms, qc_flags.
  cbn [forms In] in I. destruct I as [I|[I|[I|[I|[]]]]]; injection I as <- <- <-;
    destruct (qc_value nfc_qc_data cp) as [[]|], (qc_value nfd_qc_data cp) as [[]|], (qc_value nfkc_qc_data cp) as [[]|], (qc_value nfkd_qc_data cp) as [[]|];
    cbv [truth Z.lor Z.land Pos.lor Pos.land Z.of_N Pos.Nsucc_double Pos.Ndouble UNICODE_NFC_DISALLOWED UNICODE_NFC_MAYBE UNICODE_NFD_DISALLOWED UNICODE_NFD_MAYBE UNICODE_NFKC_DISALLOWED UNICODE_NFKC_MAYBE UNICODE_NFKD_DISALLOWED UNICODE_NFKD_MAYBE negb Z.eqb]; split; split; congruence.
Qed.

Definition fine (d last : Z) (cps : list Z) : Prop :=
  (match cps with [] => True | c :: _ => ~ (last > ccc c /\ ccc c > 0) end) /\ ordered cps /\ Forall (fun c => dis d c = false) cps.
Lemma detect_exact cps ok d m : forall last result,
  (fine d last cps /\ detect cps ok d m last result = if ok then if existsb (dis m) cps then m else result else -1) \/
  (~ fine d last cps /\ detect cps ok d m last result = d).
Proof.
  induction cps as [|c cps IH]; intros last result; cbn [detect existsb].
  - left. split; [split; [exact I|split; [apply ordered_nil|constructor]]|]. destruct ok; reflexivity.
  - destruct (truth (ccc c) && (last >? ccc c)) eqn:E; [right; split; [|reflexivity]; intros [K _]; pose proof (ccc_nonneg c); unfold truth in E; lia|].
    destruct (dis d c) eqn:D; [right; split; [|reflexivity]; intros (_ & _ & K); inversion_clear K as [|? ? K' _]; congruence|].
    destruct (IH (ccc c) (if dis m c then m else result)) as [[(F1 & F2 & F3) ->]|[F ->]].
    + left. split; [|destruct ok; [|reflexivity]; destruct (dis m c), (existsb (dis m) cps); reflexivity].
      split; [pose proof (ccc_nonneg c); unfold truth in E; lia|]. split; [apply ordered_cons; split; [|exact F2]; destruct cps; [exact I|exact F1]|constructor; assumption].
    + right. split; [|reflexivity]. intros (K1 & K2 & K3). apply F. apply ordered_cons in K2 as [K2 K4]. inversion_clear K3 as [|? ? K5 K6].
      split; [destruct cps; [exact I|exact K2]|]. auto.
Qed.

Lemma ordered_dec s : ordered s \/ ~ ordered s.
Proof.
  induction s as [|c s IH]; [left; apply ordered_nil|]. destruct IH as [O|O]; [|right; rewrite ordered_cons; tauto].
  destruct s as [|x s]; [left; apply ordered_one|].
  destruct (Z_le_gt_dec (ccc c) (ccc x)) as [L|L]; [left; apply ordered_cons; split; [lia|exact O]|].
  destruct (Z_le_gt_dec (ccc x) 0) as [L'|L']; [left; apply ordered_cons; split; [lia|exact O]|]. right. rewrite ordered_cons. lia.
Qed.
Lemma scanned_det s cps ok : scanned s cps ok -> forall cps' ok', scanned s cps' ok' -> ok = ok' /\ cps = cps'.
Proof.
  induction 1 as [|c s N|bs cp s cps ok A H IH]; intros cps' ok' K.
  - inversion K as [| |bs' cp' s' cps0 ok0 A' H' E]; [auto|]. apply app_eq_nil in E as [-> _]. destruct (pattern_nonempty _ _ (proj1 A')). reflexivity.
  - inversion K as [|c' s' N'|bs' cp' s' cps0 ok0 A' H' E]; [auto|]. destruct N. eauto.
  - inversion K as [E|c' s' N' E|bs' cp' s' cps0 ok0 A' H' E].
    + symmetry in E. apply app_eq_nil in E as [-> _]. destruct (pattern_nonempty _ _ (proj1 A)). reflexivity.
    + destruct N'. rewrite E. eauto.
    + subst. destruct (pattern_prefix _ _ _ _ _ _ (proj1 A) (proj1 A') (eq_sym E)) as (-> & -> & ->). destruct (IH _ _ H') as [-> ->]. auto.
Qed.

Section Form.
Variables (d m : Z) (rows : list (Z * Z * bool)).
Hypothesis form : In (d, m, rows) forms.

Lemma form_apart : apart rows = true.
Proof using form. pose proof (proj1 (forallb_forall _ _) apart_check _ form) as K. exact K. Qed.
Lemma form_d cp : dis d cp = true <-> row rows cp true.
Proof using form. rewrite (row_value rows cp true form_apart). exact (proj1 (flags_value d m rows cp form)). Qed.
Lemma form_m cp : dis m cp = true <-> row rows cp false.
Proof using form. rewrite (row_value rows cp false form_apart). exact (proj2 (flags_value d m rows cp form)). Qed.
Lemma form_values : 0 < d /\ 0 < m /\ d <> m.
Proof using form.
  pose proof form as I. cbn [forms In] in I. destruct I as [I|[I|[I|[I|[]]]]]; injection I as <- <- <-; cbv; repeat split; congruence.
Qed.

Lemma fine_no cps : fine d 0 cps <-> ~ says_no rows cps.
Proof using form.
  unfold fine, says_no. split.
  - intros (_ & O & F) [N|(c & I & R)]; [exact (N O)|]. apply form_d in R. pose proof (proj1 (Forall_forall _ _) F c I) as K. cbv beta in K. congruence.
  - intros N. split; [destruct cps as [|c cps]; [exact I|]; pose proof (ccc_nonneg c); lia|]. split.
    + destruct (ordered_dec cps) as [O|O]; [exact O|destruct N; left; exact O].
    + apply Forall_forall. intros c I. destruct (dis d c) eqn:D; [|reflexivity]. destruct N. right. exists c. split; [exact I|apply form_d; exact D].
Qed.
Lemma maybe_iff cps : existsb (dis m) cps = true <-> has_maybe rows cps.
Proof using form.
  rewrite existsb_exists. unfold has_maybe. split; intros (c & I & K); exists c; (split; [exact I|]); apply form_m; exact K.
Qed.

Lemma quick_exact s q e : input s q e ->
  exists v, charstr_detect_unicode_normal_form (s ++ q) e d m = Ok v /\
    (v = d <-> exists cps, (encodes s cps \/ breaks s cps) /\ says_no rows cps) /\
    (v = -1 <-> exists cps, breaks s cps /\ ~ says_no rows cps) /\
    (v = m <-> exists cps, encodes s cps /\ ~ says_no rows cps /\ has_maybe rows cps) /\
    (v = 0 <-> exists cps, encodes s cps /\ ~ says_no rows cps /\ ~ has_maybe rows cps).
Proof using form.
  intros I. destruct (scanned_total s) as (cps & ok & S); [apply text_bytes; apply I|].
  exists (detect cps ok d m 0 0). split; [unfold charstr_detect_unicode_normal_form; apply (detect_loop_ok s cps ok S); [exact I|rewrite app_length; lia]|].
  destruct form_values as (D & M & DM).
  assert (E1 : forall c, encodes s c <-> ok = true /\ c = cps).
  { intros c. rewrite encodes_scanned. split.
    - intros K. destruct (scanned_det _ _ _ S _ _ K); auto.
    - intros [-> ->]. exact S. }
  assert (E2 : forall c, breaks s c <-> ok = false /\ c = cps).
  { intros c. rewrite <- scanned_breaks. split.
    - intros K. destruct (scanned_det _ _ _ S _ _ K); auto.
    - intros [-> ->]. exact S. }
  assert (R : forall (P : list Z -> Prop) v0, (exists c, (ok = v0 /\ c = cps) /\ P c) <-> ok = v0 /\ P cps).
  { intros P v0. split; [intros (c & [-> ->] & K); auto|intros [-> K]; exists cps; auto]. }
  setoid_rewrite E1. setoid_rewrite E2. rewrite !R.
  assert (Q : (exists c, (ok = true /\ c = cps \/ ok = false /\ c = cps) /\ says_no rows c) <-> says_no rows cps).
  { split; [intros (c & [[_ ->]|[_ ->]] & K); exact K|]. intros K. exists cps. split; [|exact K]. destruct ok; auto. }
  rewrite Q, <- fine_no, <- maybe_iff. clear Q R E1 E2.
  assert (~ fine d 0 cps <-> says_no rows cps) as X.
  { rewrite fine_no. split; [|auto]. intros K. destruct (detect_exact cps ok d m 0 0) as [[F _]|[F _]]; [destruct K; apply fine_no; exact F|]. 
    unfold says_no, fine in *. destruct (ordered_dec cps) as [O|O]; [|left; exact O].
    destruct (existsb (dis d) cps) eqn:G.
    - right. apply existsb_exists in G as (c & Ic & G). exists c. split; [exact Ic|apply form_d; exact G].
    - destruct F. split; [destruct cps as [|c cps']; [exact Logic.I|]; pose proof (ccc_nonneg c); lia|]. split; [exact O|].
      apply Forall_forall. intros c Ic. destruct (dis d c) eqn:Dc; [|reflexivity]. assert (existsb (dis d) cps = true) by (apply existsb_exists; eauto). congruence. }
  rewrite <- X. pose proof (detect_exact cps ok d m 0 0) as G. clear X. revert G. generalize (fine d 0 cps). intros FF G. destruct G as [[F ->]|[F ->]]; destruct ok; [destruct (existsb (dis m) cps)|..];
    (split; [|split; [|split]]); (split; [intros E|intros E]); try tauto; try lia; try congruence; intuition (try congruence; try lia).
Qed.
End Form.

(** The combining classes. *)
Fixpoint keys_above {A} (k : Z) (rows : list (Z * A)) : bool :=
  match rows with [] => true | (j, _) :: rows => (k <? j) && keys_above j rows end.
Lemma keys_above_switch {A} (rows : list (Z * A)) : forall k, keys_above k rows = true -> forall cp a, In (cp, a) rows -> k < cp /\ switch rows cp = Some a.
Proof.
  induction rows as [|[j b] rows IH]; intros k K cp a I; [destruct I|]. cbn [keys_above] in K. apply andb_prop in K as [K1 K2]. cbn [switch].
  destruct I as [I|I]; [injection I as <- <-; rewrite Z.eqb_refl; split; [lia|reflexivity]|].
  destruct (IH j K2 cp a I) as [L E]. replace (cp =? j) with false by lia. split; [lia|exact E].
Qed.
Lemma ccc_keys : keys_above 0 ccc_data = true.
Proof. vm_compute. reflexivity. Qed.
Lemma ccc_values : forallb (fun '(_, c) => (0 <? c) && (c <=? 240)) ccc_data = true.
Proof. vm_compute. reflexivity. Qed.
Lemma class_exact cp :
  0 <= charstr_unicode_canonical_combining_class cp <= 240 /\
  forall c, charstr_unicode_canonical_combining_class cp = c <-> In (cp, c) ccc_data \/ (c = 0 /\ forall c', ~ In (cp, c') ccc_data).
Proof.
  unfold charstr_unicode_canonical_combining_class. destruct (switch ccc_data cp) as [x|] eqn:E.
  - pose proof (switch_in _ _ _ E) as J. pose proof (proj1 (forallb_forall _ _) ccc_values _ J) as V. cbv beta iota in V. split; [lia|].
    intros c. split; [intros <-; left; exact J|]. intros [I|[_ N]]; [|destruct (N _ J)]. destruct (keys_above_switch _ _ ccc_keys _ _ I). congruence.
  - split; [lia|]. assert (forall c', ~ In (cp, c') ccc_data) as N by (intros c' I; destruct (keys_above_switch _ _ ccc_keys _ _ I); congruence).
    intros c. split; [intros <-; auto|]. intros [I|[-> _]]; [destruct (N _ I)|reflexivity].
Qed.
