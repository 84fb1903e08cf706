(** Canonical ordering and composition as functions, and that they are what
    NormSpec.v says. *)
From Verif Require Import Base UcdData NormModel NormSpec Utf8Spec NormTables NormFacts.
From Coq Require Import ZifyBool ZifyNat.

#[local] Opaque decomposition_data ccc_data exclusion_data nfc_qc_data nfd_qc_data.
Arguments charstr_unicode_canonical_combining_class : simpl never.

(** * Canonical ordering *)

(** Insert before the first character of greater class. *)
Fixpoint ins (c : Z) (run : list Z) : list Z :=
  match run with
  | [] => [c]
  | x :: run => if ccc x >? ccc c then c :: x :: run else x :: ins c run
  end.
(** What is finished, and the combining characters since. *)
Definition ostep (st : list Z * list Z) (c : Z) : list Z * list Z :=
  let '(pre, run) := st in
  if ccc c =? 0 then (pre ++ run ++ [c], []) else (pre, ins c run).
Definition oflat (st : list Z * list Z) : list Z := fst st ++ snd st.
Definition osort (s : list Z) : list Z := oflat (fold_left ostep s ([], [])).

Lemma exchange_ccc pre a b post : ccc a > ccc b -> ccc b > 0 -> exchange (pre ++ a :: b :: post) (pre ++ b :: a :: post).
Proof. intros A B. apply (Exchange pre a b post (ccc a) (ccc b)); auto; apply class_ccc; reflexivity. Qed.
Lemma exchange_inv s t : exchange s t -> exists pre a b post,
  s = pre ++ a :: b :: post /\ t = pre ++ b :: a :: post /\ ccc a > ccc b /\ ccc b > 0.
Proof.
  intros [pre a b post ca cb A B H1 H2]. apply class_ccc in A, B. subst. exists pre, a, b, post. auto.
Qed.
Lemma exchanges_trans s t u : exchanges s t -> exchanges t u -> exchanges s u.
Proof. induction 1 as [|s t v H _ IH]; [auto|]. intros K. eapply Ex_step; [exact H|auto]. Qed.
Lemma exchange_context p q s t : exchange s t -> exchange (p ++ s ++ q) (p ++ t ++ q).
Proof.
  intros H. apply exchange_inv in H as (pre & a & b & post & -> & -> & A & B).
  replace (p ++ (pre ++ a :: b :: post) ++ q) with ((p ++ pre) ++ a :: b :: (post ++ q)) by (rewrite <- !app_assoc; reflexivity).
  replace (p ++ (pre ++ b :: a :: post) ++ q) with ((p ++ pre) ++ b :: a :: (post ++ q)) by (rewrite <- !app_assoc; reflexivity).
  apply exchange_ccc; assumption.
Qed.
Lemma exchanges_context p q s t : exchanges s t -> exchanges (p ++ s ++ q) (p ++ t ++ q).
Proof. induction 1 as [|s t u H _ IH]; [constructor|]. eapply Ex_step; [apply exchange_context; exact H|exact IH]. Qed.

(** Every element nonzero, classes nondecreasing. *)
Fixpoint sorted (run : list Z) : Prop :=
  match run with
  | [] => True
  | x :: run => 0 < ccc x /\ (forall y, In y run -> ccc x <= ccc y) /\ sorted run
  end.
Lemma ins_in c run x : In x (ins c run) <-> x = c \/ In x run.
Proof.
  induction run as [|y run IH]; cbn [ins]; [cbn; intuition|]. destruct (ccc y >? ccc c); cbn [In]; [intuition|]. rewrite IH. intuition.
Qed.
Lemma ins_sorted c run : 0 < ccc c -> sorted run -> sorted (ins c run).
Proof.
  intros P. induction run as [|y run IH]; cbn [ins sorted]; [intros _; split; [exact P|]; split; [intros y []|exact I]|]. intros (Hy & Hr & S).
  destruct (ccc y >? ccc c) eqn:E; cbn [sorted].
  - split; [exact P|]. split; [|auto]. intros z [->|I]; [lia|]. specialize (Hr z I). lia.
  - split; [exact Hy|]. split; [|auto]. intros z I. apply ins_in in I as [->|I]; [lia|auto].
Qed.
Lemma ins_last c run : (forall x, In x run -> ccc x <= ccc c) -> ins c run = run ++ [c].
Proof.
  induction run as [|y run IH]; intros H; [reflexivity|]. cbn [ins]. pose proof (H y ltac:(left; reflexivity)).
  replace (ccc y >? ccc c) with false by lia. rewrite IH; [reflexivity|]. intros x I. apply H. right; exact I.
Qed.
(** Inserting is moving left. *)
Lemma ins_exchanges c run : 0 < ccc c -> sorted run -> exchanges (run ++ [c]) (ins c run).
Proof.
  intros P. induction run as [|y run IH]; cbn [ins sorted]; [constructor|]. intros (Hy & Hr & S).
  destruct (ccc y >? ccc c) eqn:E.
  - apply exchanges_trans with (y :: c :: run).
    + assert (G : forall pre run, Forall (fun x => ccc x > ccc c) run -> exchanges (pre ++ run ++ [c]) (pre ++ c :: run)).
      { clear - P. intros pre run. revert pre. induction run as [|x run IH] using rev_ind; intros pre F; [constructor|].
        apply Forall_app in F as [F1 F2]. inversion_clear F2 as [|? ? Fx _]. rewrite <- app_assoc. cbn [app].
        eapply Ex_step.
        - replace (pre ++ run ++ [x; c]) with ((pre ++ run) ++ x :: c :: []) by (rewrite <- app_assoc; reflexivity). apply exchange_ccc; lia.
        - replace ((pre ++ run) ++ [c; x]) with ([] ++ (pre ++ run ++ [c]) ++ [x]) by (cbn; rewrite <- !app_assoc; reflexivity).
          replace (pre ++ c :: run ++ [x]) with ([] ++ (pre ++ c :: run) ++ [x]) by (cbn; rewrite <- !app_assoc; reflexivity).
          apply exchanges_context. apply IH. exact F1. }
      apply (G [y] run). apply Forall_forall. intros x I. specialize (Hr x I). lia.
    + eapply Ex_step; [|constructor]. apply (exchange_ccc [] y c run); lia.
  - specialize (IH S). apply (exchanges_context [y] []) in IH. rewrite !app_nil_r in IH. exact IH.
Qed.

Lemma ins_comm a b run : ccc a > ccc b -> ins a (ins b run) = ins b (ins a run).
Proof.
  intros H. induction run as [|x run IH]; cbn [ins].
  - replace (ccc b >? ccc a) with false by lia. replace (ccc a >? ccc b) with true by lia. reflexivity.
  - destruct (ccc x >? ccc b) eqn:Eb, (ccc x >? ccc a) eqn:Ea; cbn [ins].
    + replace (ccc b >? ccc a) with false by lia. rewrite Ea. replace (ccc a >? ccc b) with true by lia. reflexivity.
    + replace (ccc b >? ccc a) with false by lia. rewrite Ea, Eb. reflexivity.
    + lia.
    + rewrite Ea, Eb, IH. reflexivity.
Qed.
Lemma exchange_osort s t : exchange s t -> osort s = osort t.
Proof.
  intros H. apply exchange_inv in H as (pre & a & b & post & -> & -> & A & B). unfold osort. rewrite !fold_left_app. cbn [fold_left].
  f_equal. f_equal. destruct (fold_left ostep pre ([], [])) as [p r]. cbn [ostep].
  replace (ccc a =? 0) with false by lia. replace (ccc b =? 0) with false by lia. cbn [ostep].
  replace (ccc a =? 0) with false by lia. replace (ccc b =? 0) with false by lia. rewrite (ins_comm a b) by exact A. reflexivity.
Qed.
Lemma exchanges_osort s t : exchanges s t -> osort s = osort t.
Proof. induction 1 as [|s t u H _ IH]; [reflexivity|]. rewrite (exchange_osort _ _ H). exact IH. Qed.
Lemma exchange_fold s t st : exchange s t -> fold_left ostep s st = fold_left ostep t st.
Proof.
  intros H. apply exchange_inv in H as (pre & a & b & post & -> & -> & A & B). rewrite !fold_left_app. cbn [fold_left].
  f_equal. destruct (fold_left ostep pre st) as [p r]. cbn [ostep].
  replace (ccc a =? 0) with false by lia. replace (ccc b =? 0) with false by lia. cbn [ostep].
  replace (ccc a =? 0) with false by lia. replace (ccc b =? 0) with false by lia. rewrite (ins_comm a b) by exact A. reflexivity.
Qed.

Lemma ordered_iff s : ordered s <-> forall pre a b post, s = pre ++ a :: b :: post -> ~ (ccc a > ccc b /\ ccc b > 0).
Proof.
  split.
  - intros H pre a b post -> [A B]. eapply H. apply exchange_ccc; eassumption.
  - intros H t K. apply exchange_inv in K as (pre & a & b & post & E & _ & A & B). eapply H; eauto.
Qed.
Lemma ordered_nil : ordered [].
Proof. apply ordered_iff. intros pre a b post E. destruct pre; discriminate. Qed.
Lemma ordered_one c : ordered [c].
Proof. apply ordered_iff. intros pre a b post E. destruct pre as [|x [|y pre]]; discriminate. Qed.
Lemma ordered_cons c s : ordered (c :: s) <-> (match s with [] => True | x :: _ => ~ (ccc c > ccc x /\ ccc x > 0) end) /\ ordered s.
Proof.
  rewrite !ordered_iff. split.
  - intros H. split; [|intros pre a b post ->; apply (H (c :: pre) a b post); reflexivity]. destruct s as [|x s]; [exact I|]. apply (H [] c x s). reflexivity.
  - intros [H1 H2] pre a b post E. destruct pre as [|y pre]; cbn in E.
    + injection E as -> ->. exact H1.
    + injection E as -> ->. apply (H2 pre a b post). reflexivity.
Qed.
Lemma ordered_app s t : ordered (s ++ t) -> ordered s /\ ordered t.
Proof.
  rewrite !ordered_iff. intros H. split; intros pre a b post ->.
  - apply (H pre a b (post ++ t)). rewrite <- app_assoc. reflexivity.
  - apply (H (s ++ pre) a b post). rewrite app_assoc. reflexivity.
Qed.
Lemma sorted_ordered run : sorted run -> ordered run.
Proof.
  induction run as [|x run IH]; intros S; [apply ordered_nil|]. cbn [sorted] in S. destruct S as (P & H & S). apply ordered_cons. split; [|auto].
  destruct run as [|y run]; [exact I|]. specialize (H y ltac:(left; reflexivity)). lia.
Qed.
Lemma ordered_starter s c t : ordered s -> ccc c = 0 -> ordered (c :: t) -> ordered (s ++ c :: t).
Proof.
  induction s as [|x s IH]; intros H C K; [exact K|]. cbn [app]. apply ordered_cons in H as [H1 H2]. apply ordered_cons. split; [|auto].
  destruct s as [|y s]; cbn [app]; [lia|exact H1].
Qed.

(** The states of [osort]: what is finished ends in a starter. *)
Definition oinv (st : list Z * list Z) : Prop :=
  let '(pre, run) := st in
  ordered pre /\ (pre = [] \/ exists q c, pre = q ++ [c] /\ ccc c = 0) /\ sorted run.
Lemma oinv_flat st : oinv st -> ordered (oflat st).
Proof.
  destruct st as [pre run]. intros (O & [->|(q & c & -> & C)] & S); unfold oflat; cbn [fst snd].
  - apply sorted_ordered. exact S.
  - rewrite <- app_assoc. cbn [app]. apply ordered_app in O as [O _]. apply ordered_starter; [exact O|exact C|].
    apply ordered_cons. split; [|apply sorted_ordered; exact S]. destruct run as [|x run]; [exact I|]. pose proof (ccc_nonneg x). lia.
Qed.
Lemma ostep_inv st c : oinv st -> oinv (ostep st c).
Proof.
  intros H. pose proof (oinv_flat _ H) as F. destruct st as [pre run]. cbn [ostep]. destruct (ccc c =? 0) eqn:E.
  - unfold oinv. split; [|split; [|exact I]].
    + rewrite app_assoc. apply ordered_starter; [exact F|lia|apply ordered_one].
    + right. exists (pre ++ run), c. rewrite app_assoc. split; [reflexivity|lia].
  - destruct H as (O & P & S). unfold oinv. split; [exact O|]. split; [exact P|]. apply ins_sorted; [pose proof (ccc_nonneg c); lia|exact S].
Qed.
Lemma ofold_inv s : forall st, oinv st -> oinv (fold_left ostep s st).
Proof. induction s as [|c s IH]; intros st H; [exact H|]. cbn [fold_left]. apply IH. apply ostep_inv. exact H. Qed.
Lemma oinv_init : oinv ([], []).
Proof. unfold oinv. split; [apply ordered_nil|]. split; [left; reflexivity|exact I]. Qed.
Lemma ofold_exchanges s : forall st, oinv st -> exchanges (oflat st ++ s) (oflat (fold_left ostep s st)).
Proof.
  induction s as [|c s IH]; intros st H; [rewrite app_nil_r; constructor|]. cbn [fold_left].
  eapply exchanges_trans; [|apply IH; apply ostep_inv; exact H]. destruct st as [pre run]. unfold oflat. cbn [fst snd ostep].
  destruct (ccc c =? 0) eqn:E; cbn [fst snd].
  - rewrite app_nil_r, <- !app_assoc. constructor.
  - destruct H as (_ & _ & S). replace ((pre ++ run) ++ c :: s) with (pre ++ (run ++ [c]) ++ s) by (rewrite <- !app_assoc; reflexivity).
    replace ((pre ++ ins c run) ++ s) with (pre ++ ins c run ++ s) by apply app_assoc. apply exchanges_context. apply ins_exchanges; [pose proof (ccc_nonneg c); lia|exact S].
Qed.
Lemma osort_exchanges s : exchanges s (osort s).
Proof. exact (ofold_exchanges s ([], []) oinv_init). Qed.
Lemma osort_ordered s : ordered (osort s).
Proof. apply oinv_flat. apply ofold_inv. apply oinv_init. Qed.
Lemma sorted_last run x : sorted (run ++ [x]) -> forall y, In y run -> ccc y <= ccc x.
Proof.
  induction run as [|z run IH]; [intros _ y []|]. cbn [app sorted]. intros (_ & H & S) y [->|I]; [|auto]. apply H. apply in_or_app. right. left. reflexivity.
Qed.
Lemma ofold_ordered s : forall st, oinv st -> ordered (oflat st ++ s) -> oflat (fold_left ostep s st) = oflat st ++ s.
Proof.
  induction s as [|c s IH]; intros st H K; [rewrite app_nil_r; reflexivity|]. cbn [fold_left].
  assert (E : oflat (ostep st c) = oflat st ++ [c]).
  { destruct st as [pre run]. unfold oflat in *. cbn [fst snd ostep] in *. destruct (ccc c =? 0) eqn:E; cbn [fst snd].
    - rewrite app_nil_r, <- app_assoc. reflexivity.
    - rewrite <- app_assoc. f_equal. apply ins_last. destruct H as (_ & _ & S). intros x I.
      destruct run as [|y run _] using rev_ind; [destruct I|]. assert (L : ccc y <= ccc c).
      { pose proof (ccc_nonneg c). destruct (Z_le_gt_dec (ccc y) (ccc c)); [assumption|]. exfalso.
        rewrite ordered_iff in K. apply (K (pre ++ run) y c s); [rewrite <- !app_assoc; reflexivity|lia]. }
      apply in_app_or in I as [I|[->|[]]]; [|exact L]. pose proof (sorted_last _ _ S _ I). lia. }
  rewrite IH; rewrite ?E, <- ?app_assoc; [reflexivity|apply ostep_inv; exact H|exact K].
Qed.
Lemma osort_of_ordered s : ordered s -> osort s = s.
Proof. intros H. exact (ofold_ordered s ([], []) oinv_init H). Qed.

Lemma nfd_iff s t : nfd s t <-> t = osort (fds s).
Proof.
  split.
  - intros (u & D & E & O). apply decomposed_all_iff in D as ->. rewrite (exchanges_osort _ _ E). symmetry. apply osort_of_ordered. exact O.
  - intros ->. exists (fds s). split; [apply fds_decomposed|]. split; [apply osort_exchanges|apply osort_ordered].
Qed.

Lemma ins_forall (P : Z -> Prop) c run : P c -> Forall P run -> Forall P (ins c run).
Proof.
  intros H F. apply Forall_forall. intros x I. apply ins_in in I as [->|I]; [exact H|]. eapply Forall_forall in F; eauto.
Qed.
Lemma osort_forall (P : Z -> Prop) s : Forall P s -> Forall P (osort s).
Proof.
  intros F. unfold osort. assert (G : forall st, Forall P (fst st) -> Forall P (snd st) -> Forall P (oflat (fold_left ostep s st))).
  { induction F as [|c s H F IH]; intros [pre run] F1 F2; [apply Forall_app; auto|]. cbn [fold_left ostep fst snd] in *.
    destruct (ccc c =? 0); apply IH; cbn [fst snd]; auto.
    - apply Forall_app. split; [exact F1|]. apply Forall_app. auto.
    - apply ins_forall; auto. }
  apply G; constructor.
Qed.
Lemma ins_total c run : total (ins c run) = width c + total run.
Proof.
  induction run as [|x run IH]; [reflexivity|]. cbn [ins]. destruct (ccc x >? ccc c); [reflexivity|].
  cbn [total fold_right]. fold (total (ins c run)). fold (total run). lia.
Qed.
Lemma osort_total s : total (osort s) = total s.
Proof.
  unfold osort. assert (G : forall st, total (oflat (fold_left ostep s st)) = total (oflat st) + total s).
  { induction s as [|c s IH]; intros [pre run]; [cbn [fold_left total fold_right]; lia|]. cbn [fold_left]. rewrite IH. unfold oflat. cbn [ostep].
    change (total (c :: s)) with (width c + total s).
    destruct (ccc c =? 0); cbn [fst snd]; rewrite !total_app, ?ins_total; [|lia]. change (total [c]) with (width c + 0). change (total []) with 0. lia. }
  apply (G ([], [])).
Qed.
Lemma nfd_idem s t : nfd s t -> nfd t t.
Proof.
  intros H. apply nfd_iff in H as ->. apply nfd_iff. rewrite (fds_plain (osort _)) by (apply osort_forall, fds_all_plain).
  symmetry. apply osort_of_ordered. apply osort_ordered.
Qed.
Lemma nfd_self_iff t : nfd t t <-> Forall (fun x => plain x = true) t /\ ordered t.
Proof.
  split.
  - intros H. apply nfd_iff in H. split; rewrite H; [apply osort_forall, fds_all_plain|apply osort_ordered].
  - intros [F O]. apply nfd_iff. rewrite fds_plain by exact F. symmetry. apply osort_of_ordered. exact O.
Qed.

(** * Composition *)

Inductive cstate :=
| CI (out : list Z)
| CS (pre : list Z) (l : Z) (mid : list Z).
Definition cflat (st : cstate) : list Z := match st with CI out => out | CS pre l mid => pre ++ l :: mid end.
Definition cblocked (mid : list Z) (c : Z) : bool := existsb (fun m => ccc m >=? ccc c) mid.
Definition ckeep (pre : list Z) (l : Z) (mid : list Z) (c : Z) : cstate :=
  if ccc c =? 0 then CS (pre ++ l :: mid) c [] else CS pre l (mid ++ [c]).
Definition cstep (f : Z -> Z -> option Z) (st : cstate) (c : Z) : cstate :=
  match st with
  | CI out => if ccc c =? 0 then CS out c [] else CI (out ++ [c])
  | CS pre l mid =>
      if cblocked mid c then ckeep pre l mid c
      else match f l c with Some p => CS pre p mid | None => ckeep pre l mid c end
  end.
Definition nonstarter (c : Z) : Prop := ccc c <> 0.
Definition cwf (st : cstate) : Prop :=
  match st with
  | CI out => Forall nonstarter out
  | CS pre l mid => ccc l = 0 /\ Forall nonstarter mid
  end.
Lemma ckeep_wf pre l mid c : ccc l = 0 -> Forall nonstarter mid -> cwf (ckeep pre l mid c).
Proof.
  intros L M. unfold ckeep. destruct (ccc c =? 0) eqn:E; cbn [cwf].
  - split; [lia|constructor].
  - split; [exact L|]. apply Forall_app. split; [exact M|]. constructor; [unfold nonstarter; lia|constructor].
Qed.
Lemma ckeep_flat pre l mid c : cflat (ckeep pre l mid c) = (pre ++ l :: mid) ++ [c].
Proof. unfold ckeep. destruct (ccc c =? 0); cbn [cflat]; [reflexivity|]. rewrite <- app_assoc. reflexivity. Qed.
Lemma cstep_wf (f : Z -> Z -> option Z) : (forall l c p, ccc l = 0 -> f l c = Some p -> ccc p = 0) -> forall st c, cwf st -> cwf (cstep f st c).
Proof.
  intros F [out|pre l mid] c W; cbn [cstep].
  - cbn in W. destruct (ccc c =? 0) eqn:E; cbn [cwf]; [split; [lia|constructor]|].
    apply Forall_app. split; [exact W|]. constructor; [unfold nonstarter; lia|constructor].
  - destruct W as [L M]. destruct (cblocked mid c); [apply ckeep_wf; assumption|].
    destruct (f l c) as [p|] eqn:E; [|apply ckeep_wf; assumption]. cbn [cwf]. split; [eapply F; eauto|exact M].
Qed.
Definition cst : cstate -> Z -> cstate := cstep join.
Lemma cst_wf st c : cwf st -> cwf (cst st c).
Proof. apply cstep_wf. exact join_starter. Qed.
Lemma cfold_wf s : forall st, cwf st -> cwf (fold_left cst s st).
Proof. induction s as [|c s IH]; intros st W; [exact W|]. cbn [fold_left]. apply IH. apply cst_wf. exact W. Qed.

(** A list splits in one way at its last starter. *)
Lemma last_starter pre : forall l mid pre' l' mid', ccc l = 0 -> ccc l' = 0 -> Forall nonstarter mid -> Forall nonstarter mid' ->
  pre ++ l :: mid = pre' ++ l' :: mid' -> pre = pre' /\ l = l' /\ mid = mid'.
Proof.
  induction pre as [|x pre IH]; intros l mid pre' l' mid' L L' M M' E; destruct pre' as [|y pre']; cbn [app] in E; injection E as E1 E2; subst.
  - auto.
  - exfalso. assert (I : In l' (pre' ++ l' :: mid')) by (apply in_or_app; right; left; reflexivity). eapply Forall_forall in M; [|exact I]. apply M, L'.
  - exfalso. assert (I : In l (pre ++ l :: mid)) by (apply in_or_app; right; left; reflexivity). eapply Forall_forall in M'; [|exact I]. apply M', L.
  - destruct (IH _ _ _ _ _ L L' M M' E2) as (-> & -> & ->). auto.
Qed.
Lemma not_blocked_iff l mid c : ccc l = 0 -> Forall nonstarter mid -> (not_blocked l mid c <-> cblocked mid c = false).
Proof.
  intros L M. unfold not_blocked, cblocked. split.
  - intros [_ H]. destruct (existsb _ mid) eqn:E; [|reflexivity]. apply existsb_exists in E as (m & I & K).
    assert (0 < ccc m < ccc c) by (apply (H m); [exact I| |]; apply class_ccc; reflexivity). lia.
  - intros H. split; [apply class_ccc; exact L|]. intros b cb cc I B C. apply class_ccc in B, C. subst.
    eapply Forall_forall in M; [|exact I]. unfold nonstarter in M. pose proof (ccc_nonneg b).
    destruct (Z_lt_le_dec (ccc b) (ccc c)); [lia|]. exfalso.
    assert (existsb (fun m => ccc m >=? ccc c) mid = true) by (apply existsb_exists; exists b; split; [exact I|lia]). congruence.
Qed.
Lemma not_blocked_mid l mid c : not_blocked l mid c -> ccc l = 0 /\ Forall nonstarter mid.
Proof.
  intros [S H]. split; [apply class_ccc; exact S|]. apply Forall_forall. intros b I. unfold nonstarter.
  assert (0 < ccc b < ccc c) by (apply (H b); [exact I| |]; apply class_ccc; reflexivity). lia.
Qed.
Lemma compose_step st c r s : cwf st -> (compose (cflat st) (c :: s) r <-> compose (cflat (cst st c)) s r).
Proof.
  intros W. split.
  - intros H. remember (cflat st) as d eqn:Ed. inversion H as [|pre l mid c' p s' r' NB PC K|d' c' s' r' N K]; subst.
    + destruct (not_blocked_mid _ _ _ NB) as [L M]. apply join_composite in PC; [|exact L]. destruct st as [out|pre' l' mid']; cbn [cflat cwf] in *.
      * exfalso. assert (I : In l out) by (rewrite <- H0; apply in_or_app; right; left; reflexivity). eapply Forall_forall in W; [|exact I]. apply W, L.
      * destruct W as [L' M']. destruct (last_starter _ _ _ _ _ _ L L' M M' H0) as (-> & -> & ->).
        unfold cst, cstep. apply not_blocked_iff in NB; [|assumption|assumption]. rewrite NB, PC. exact K.
    + destruct st as [out|pre' l' mid']; cbn [cflat cwf] in *.
      * unfold cst, cstep. destruct (ccc c =? 0); exact K.
      * destruct W as [L' M']. unfold cst, cstep. destruct (cblocked mid' c) eqn:B; [rewrite ckeep_flat; exact K|].
        destruct (join l' c) as [p|] eqn:J; [|rewrite ckeep_flat; exact K]. exfalso.
        apply (N pre' l' mid' p); [reflexivity| |apply join_composite; assumption]. apply not_blocked_iff; assumption.
  - intros H. destruct st as [out|pre l mid]; cbn [cflat cwf] in *.
    + apply C_keep.
      * intros pre l mid p -> NB. destruct (not_blocked_mid _ _ _ NB) as [L M]. apply Forall_app in W as [_ W]. inversion_clear W as [|? ? X _].
        destruct (X L).
      * unfold cst, cstep in H. destruct (ccc c =? 0); exact H.
    + destruct W as [L M]. unfold cst, cstep in H. destruct (cblocked mid c) eqn:B.
      * rewrite ckeep_flat in H. apply C_keep; [|exact H]. intros pre' l' mid' p E NB. destruct (not_blocked_mid _ _ _ NB) as [L' M'].
        destruct (last_starter _ _ _ _ _ _ L L' M M' E) as (-> & -> & ->). apply not_blocked_iff in NB; [congruence|assumption|assumption].
      * destruct (join l c) as [p|] eqn:J.
        -- apply C_join with p; [apply not_blocked_iff; assumption|apply join_composite; assumption|exact H].
        -- rewrite ckeep_flat in H. apply C_keep; [|exact H]. intros pre' l' mid' p E NB. destruct (not_blocked_mid _ _ _ NB) as [L' M'].
           destruct (last_starter _ _ _ _ _ _ L L' M M' E) as (-> & -> & ->). intros PC. apply join_composite in PC; [congruence|exact L'].
Qed.
Lemma compose_iff s : forall st r, cwf st -> (compose (cflat st) s r <-> r = cflat (fold_left cst s st)).
Proof.
  induction s as [|c s IH]; intros st r W.
  - cbn [fold_left]. split; [intros H; inversion H; reflexivity|intros ->; constructor].
  - rewrite compose_step by exact W. cbn [fold_left]. apply IH. apply cst_wf. exact W.
Qed.
Definition composed (s : list Z) : list Z := cflat (fold_left cst s (CI [])).
Lemma compose_composed s r : compose [] s r <-> r = composed s.
Proof. apply (compose_iff s (CI []) r). constructor. Qed.
Lemma nfc_iff s t : nfc s t <-> t = composed (osort (fds s)).
Proof.
  unfold nfc. split.
  - intros (u & H & K). apply nfd_iff in H as ->. apply compose_composed. exact K.
  - intros ->. exists (osort (fds s)). split; [apply nfd_iff; reflexivity|apply compose_composed; reflexivity].
Qed.

(** Space *)
Lemma cst_total st c : total (cflat (cst st c)) <= total (cflat st) + width c.
Proof.
  assert (K : forall pre l mid, total (cflat (ckeep pre l mid c)) <= total (pre ++ l :: mid) + width c).
  { intros pre l mid. rewrite ckeep_flat, total_app. change (total [c]) with (width c + 0). lia. }
  destruct st as [out|pre l mid]; unfold cst; cbn [cstep].
  - destruct (ccc c =? 0); cbn [cflat]; rewrite total_app; change (total [c]) with (width c + 0); lia.
  - destruct (cblocked mid c); [apply K|]. destruct (join l c) as [p|] eqn:J; [|apply K]. cbn [cflat]. rewrite !total_app.
    apply join_scalar in J as [_ J]. change (total (p :: mid)) with (width p + total mid). change (total (l :: mid)) with (width l + total mid). lia.
Qed.
Lemma composed_total s : total (composed s) <= total s.
Proof.
  assert (G : forall st, total (cflat (fold_left cst s st)) <= total (cflat st) + total s).
  { induction s as [|c s IH]; intros st; [cbn [fold_left total fold_right]; lia|]. cbn [fold_left].
    change (total (c :: s)) with (width c + total s). pose proof (cst_total st c). specialize (IH (cst st c)). lia. }
  specialize (G (CI [])). cbn [cflat] in G. change (total []) with 0 in G. exact G.
Qed.
Lemma cst_scalar st c : Forall scalar (cflat st) -> scalar c -> Forall scalar (cflat (cst st c)).
Proof.
  intros F S. assert (K : forall pre l mid, Forall scalar (pre ++ l :: mid) -> Forall scalar (cflat (ckeep pre l mid c))).
  { intros pre l mid K. rewrite ckeep_flat. apply Forall_app. auto. }
  destruct st as [out|pre l mid]; unfold cst; cbn [cstep cflat] in *.
  - destruct (ccc c =? 0); cbn [cflat]; apply Forall_app; auto.
  - destruct (cblocked mid c); [apply K, F|]. destruct (join l c) as [p|] eqn:J; [|apply K, F]. cbn [cflat].
    apply Forall_app in F as [F1 F2]. inversion_clear F2. apply Forall_app. split; [exact F1|]. constructor; [|assumption]. apply join_scalar in J. tauto.
Qed.
Lemma composed_scalar s : Forall scalar s -> Forall scalar (composed s).
Proof.
  intros H. unfold composed. assert (G : forall st, Forall scalar (cflat st) -> Forall scalar (cflat (fold_left cst s st))).
  { induction H as [|c s S H IH]; intros st F; [exact F|]. cbn [fold_left]. apply IH. apply cst_scalar; assumption. }
  apply G. constructor.
Qed.

(** * Composition keeps canonical equivalence *)

(** What follows the last starter is fully decomposed. *)
Definition cplain (st : cstate) : Prop :=
  match st with CI out => Forall (fun x => plain x = true) out | CS pre l mid => Forall (fun x => plain x = true) mid end.
Lemma move_left A c mid B : cblocked mid c = false -> Forall nonstarter mid -> osort (A ++ mid ++ c :: B) = osort (A ++ c :: mid ++ B).
Proof.
  revert A. induction mid as [|m mid IH]; intros A Hb M; [reflexivity|]. cbn [cblocked existsb] in Hb. apply orb_false_elim in Hb as [Hm Hb].
  inversion_clear M as [|? ? M1 M2]. unfold nonstarter in M1. pose proof (ccc_nonneg m).
  transitivity (osort (A ++ m :: c :: mid ++ B)).
  - specialize (IH (A ++ [m]) Hb M2). rewrite <- !app_assoc in IH. exact IH.
  - symmetry. apply exchange_osort. apply (exchange_ccc A c m (mid ++ B)); lia.
Qed.
Lemma cst_equivalent st c rest : cwf st -> cplain st -> plain c = true ->
  osort (fds (cflat (cst st c) ++ rest)) = osort (fds (cflat st ++ c :: rest)) /\ cplain (cst st c).
Proof.
  intros W P PC. assert (K : forall pre l mid, Forall (fun x => plain x = true) mid ->
    osort (fds (cflat (ckeep pre l mid c) ++ rest)) = osort (fds ((pre ++ l :: mid) ++ c :: rest)) /\ cplain (ckeep pre l mid c)).
  { intros pre l mid F. rewrite ckeep_flat, <- app_assoc. split; [reflexivity|]. unfold ckeep. destruct (ccc c =? 0); cbn [cplain]; [constructor|].
    apply Forall_app. auto. }
  destruct st as [out|pre l mid]; unfold cst; cbn [cstep cflat cplain cwf] in *.
  - destruct (ccc c =? 0); cbn [cflat cplain]; rewrite <- app_assoc; split; try reflexivity; [constructor|apply Forall_app; auto].
  - destruct (cblocked mid c) eqn:B; [apply K, P|]. destruct (join l c) as [p|] eqn:J; [|apply K, P]. cbn [cflat cplain]. split; [|exact P].
    apply join_fd in J. rewrite <- !app_assoc. cbn [app]. rewrite !fds_app, !fds_cons, !fds_app, fds_cons, J, (fds_plain mid P), (fd_plain c PC).
    rewrite <- !app_assoc. cbn [app]. destruct W as [_ M]. rewrite !(app_assoc (fds pre)). symmetry. apply move_left; assumption.
Qed.
Lemma composed_equivalent s : Forall (fun x => plain x = true) s -> osort (fds (composed s)) = osort s.
Proof.
  intros H. unfold composed.
  assert (G : forall st, cwf st -> cplain st -> osort (fds (cflat (fold_left cst s st))) = osort (fds (cflat st ++ s))).
  { induction H as [|c s S H IH]; intros st W P; [rewrite app_nil_r; reflexivity|]. cbn [fold_left].
    destruct (cst_equivalent st c s W P S) as [E P']. rewrite IH; [exact E|apply cst_wf; exact W|exact P']. }
  rewrite (G (CI [])) by (constructor || exact I). cbn [cflat app]. rewrite fds_plain by exact H. reflexivity.
Qed.
Lemma nfd_of_composed s u t : nfd s u -> compose [] u t -> nfd t u.
Proof.
  intros N C. apply nfd_iff. apply compose_composed in C as ->. apply nfd_idem in N. apply nfd_self_iff in N as [F O].
  rewrite composed_equivalent by exact F. symmetry. apply osort_of_ordered. exact O.
Qed.

(** * Two passes *)

Definition hstep (st : option (list Z * Z)) (c : Z) : option (list Z * Z) :=
  match st with
  | None => Some ([], c)
  | Some (out, n) => match hg n c with Some p => Some (out, p) | None => Some (out ++ [n], c) end
  end.
Definition hflat (st : option (list Z * Z)) : list Z := match st with None => [] | Some (out, n) => out ++ [n] end.
Definition hpass (s : list Z) : list Z := hflat (fold_left hstep s None).

Lemma nonstarter_hangul c : nonstarter c -> hangul c = false.
Proof. intros N. destruct (hangul c) eqn:E; [|reflexivity]. destruct (N (ccc_hangul c E)). Qed.
Lemma hg_none_l l c : hangul l = false -> hg l c = None.
Proof. intros H. destruct (hg l c) eqn:E; [|reflexivity]. apply hg_hangul in E as (E & _). congruence. Qed.
Lemma hg_none_r l c : hangul c = false -> hg l c = None.
Proof. intros H. destruct (hg l c) eqn:E; [|reflexivity]. apply hg_hangul in E as (_ & E & _). congruence. Qed.
Lemma tb_none_l l c : hangul l = true -> tb l c = None.
Proof. intros H. destruct (tb l c) eqn:E; [|reflexivity]. apply tb_hangul in E as (E & _). congruence. Qed.
Lemma hstep_none st c : hangul c = false -> hstep st c = Some (hflat st, c).
Proof. intros H. destruct st as [[out n]|]; cbn [hstep hflat]; [|reflexivity]. rewrite hg_none_r by exact H. reflexivity. Qed.
Lemma hfold_none mid : forall st, Forall nonstarter mid -> hflat (fold_left hstep mid st) = hflat st ++ mid.
Proof.
  induction mid as [|m mid IH]; intros st M; [rewrite app_nil_r; reflexivity|]. inversion_clear M as [|? ? M1 M2]. cbn [fold_left].
  rewrite IH by exact M2. rewrite hstep_none by (apply nonstarter_hangul; exact M1). cbn [hflat]. rewrite <- app_assoc. reflexivity.
Qed.
Lemma hstep_last st c pre x : hstep st c = Some (pre, x) -> x = c \/ (hangul c = true /\ hangul x = true).
Proof.
  destruct st as [[out n]|]; cbn [hstep]; [|intros H; injection H as _ ->; auto].
  destruct (hg n c) as [p|] eqn:E; intros H; injection H as _ ->; [|auto]. right. apply hg_hangul in E as (_ & E & S). split; [exact E|apply is_syllable_hangul; exact S].
Qed.

Definition two (st1 st : cstate) : Prop :=
  match st1, st with
  | CI out1, CI out => out1 = out
  | CS pre1 l1 mid1, CS pre x mid => mid1 = mid /\ hstep (fold_left hstep pre1 None) l1 = Some (pre, x)
  | _, _ => False
  end.
Lemma two_flat st1 st : cwf st1 -> two st1 st -> hpass (cflat st1) = cflat st.
Proof.
  destruct st1 as [out1|pre1 l1 mid1], st as [out|pre x mid]; cbn [two cwf cflat]; try tauto.
  - intros F ->. unfold hpass. rewrite hfold_none by exact F. reflexivity.
  - intros [_ F] [-> H]. unfold hpass. rewrite fold_left_app. cbn [fold_left]. rewrite hfold_none by exact F. rewrite H. cbn [hflat]. rewrite <- app_assoc. reflexivity.
Qed.
Lemma two_keep pre1 l1 pre x mid c : Forall nonstarter mid -> hstep (fold_left hstep pre1 None) l1 = Some (pre, x) ->
  mid <> [] \/ hg x c = None -> two (ckeep pre1 l1 mid c) (ckeep pre x mid c).
Proof.
  intros F H D. unfold ckeep. destruct (ccc c =? 0) eqn:C; cbn [two]; [|auto]. split; [reflexivity|].
  rewrite fold_left_app. cbn [fold_left]. rewrite H.
  destruct mid as [|m mid _] using rev_ind; [destruct D as [D|D]; [congruence|]; cbn [fold_left hstep]; rewrite D; reflexivity|].
  apply Forall_app in F as [F1 F2]. inversion_clear F2 as [|? ? Fm _]. rewrite fold_left_app. cbn [fold_left].
  rewrite (hstep_none _ m) by (apply nonstarter_hangul; exact Fm). cbn [hstep]. rewrite hg_none_l by (apply nonstarter_hangul; exact Fm).
  rewrite hfold_none by exact F1. cbn [hflat]. rewrite <- !app_assoc. reflexivity.
Qed.
Lemma two_step st1 st c : cwf st1 -> two st1 st -> two (cstep tb st1 c) (cst st c).
Proof.
  destruct st1 as [out1|pre1 l1 mid], st as [out|pre x mid']; cbn [two cwf]; try tauto.
  - intros F ->. unfold cst. cbn [cstep]. destruct (ccc c =? 0); cbn [two]; [|reflexivity]. split; [reflexivity|].
    pose proof (hfold_none out None F) as E. cbn [hflat app] in E.
    destruct out as [|o out _] using rev_ind; [reflexivity|]. apply Forall_app in F as [F1 F2]. inversion_clear F2 as [|? ? Fo _].
    rewrite fold_left_app in *. cbn [fold_left] in *. rewrite (hstep_none _ o) in * by (apply nonstarter_hangul; exact Fo). cbn [hstep hflat] in *.
    rewrite hg_none_l by (apply nonstarter_hangul; exact Fo). rewrite E. reflexivity.
  - intros [L F] [<- H]. unfold cst. cbn [cstep]. destruct (cblocked mid c) eqn:B.
    { apply two_keep; [exact F|exact H|]. left. intros ->. discriminate. }
    assert (T : tb l1 c = tb x c).
    { destruct (hstep_last _ _ _ _ H) as [->|[HL HX]]; [reflexivity|]. rewrite !tb_none_l by assumption. reflexivity. }
    unfold join. rewrite <- T. destruct (tb l1 c) as [p|] eqn:E.
    + cbn [two]. split; [reflexivity|]. apply tb_hangul in E as (E1 & _ & E2). rewrite hstep_none in * by assumption. congruence.
    + destruct (hg x c) as [p|] eqn:HG; [|apply two_keep; auto]. destruct (hg_hangul _ _ _ HG) as (_ & HC & _). apply ccc_hangul in HC.
      destruct mid as [|m mid]; [|exfalso; cbn [cblocked existsb] in B; pose proof (ccc_nonneg m); lia].
      unfold ckeep. rewrite HC. cbn [Z.eqb two]. split; [reflexivity|]. rewrite fold_left_app. cbn [fold_left]. rewrite H. cbn [hstep]. rewrite HG. reflexivity.
Qed.
Lemma tb_starter l c p : ccc l = 0 -> tb l c = Some p -> ccc p = 0.
Proof. intros L H. apply (join_starter l c p L). unfold join. rewrite H. reflexivity. Qed.
Lemma two_passes s : hpass (cflat (fold_left (cstep tb) s (CI []))) = composed s.
Proof.
  unfold composed. assert (G : forall st1 st, cwf st1 -> two st1 st -> hpass (cflat (fold_left (cstep tb) s st1)) = cflat (fold_left cst s st)).
  { induction s as [|c s IH]; intros st1 st W T; [apply two_flat; assumption|]. cbn [fold_left]. apply IH.
    - apply cstep_wf; [exact tb_starter|exact W].
    - apply two_step; assumption. }
  apply G; [constructor|reflexivity].
Qed.

(** * Quick checks *)

Lemma nfd_quick s : Forall (fun c => qc_value nfd_qc_data c = None) s -> ordered s -> nfd s s.
Proof.
  intros F O. apply nfd_self_iff. split; [|exact O]. eapply Forall_impl; [|exact F]. intros c. apply nfd_qc_yes.
Qed.

Inductive weave : list Z -> list Z -> list Z -> list Z -> Prop :=
| W_nil acc : weave acc [] [] []
| W_n acc c n m M : (forall a, In a acc -> ccc a < ccc c) -> weave acc n m M -> weave acc (c :: n) m (c :: M)
| W_m acc x n m M : weave (acc ++ [x]) n m M -> weave acc n (x :: m) (x :: M).
Definition inert (c : Z) : Prop := forall l, ccc l = 0 -> join l c = None.
Lemma weave_feed acc n m M : weave acc n m M -> forall pre l x, ccc l = 0 -> joins l n x -> Forall inert m -> Forall nonstarter m ->
  fold_left cst M (CS pre l acc) = CS pre x (acc ++ m).
Proof.
  induction 1 as [acc|acc c n m M A _ IH|acc y n m M _ IH]; intros pre l x L J I N.
  - cbn in *. rewrite app_nil_r. congruence.
  - cbn [joins] in J. destruct J as (q & Q & J). cbn [fold_left]. unfold cst at 2. cbn [cstep].
    replace (cblocked acc c) with false.
    + rewrite Q. apply IH; [exact (join_starter _ _ _ L Q)|exact J|exact I|exact N].
    + symmetry. unfold cblocked. destruct (existsb _ acc) eqn:E; [|reflexivity]. apply existsb_exists in E as (a & Ia & K). specialize (A a Ia). lia.
  - inversion_clear I as [|? ? I1 I2]. inversion_clear N as [|? ? N1 N2]. cbn [fold_left]. unfold cst at 2. cbn [cstep]. rewrite (I1 l L).
    unfold ckeep. unfold nonstarter in N1. replace (ccc y =? 0) with false by lia.
    replace (if cblocked acc y then CS pre l (acc ++ [y]) else CS pre l (acc ++ [y])) with (CS pre l (acc ++ [y])) by (destruct (cblocked acc y); reflexivity).
    rewrite IH with (x := x) by assumption. rewrite <- app_assoc. reflexivity.
Qed.
Definition merge (m n : list Z) : list Z := fold_left (fun r c => ins c r) m n.
Lemma merge_head m c : forall n, (forall x, In x m -> ccc c <= ccc x) -> merge m (c :: n) = c :: merge m n.
Proof.
  induction m as [|x m IH]; intros n H; [reflexivity|]. unfold merge. cbn [fold_left ins]. pose proof (H x ltac:(left; reflexivity)).
  replace (ccc c >? ccc x) with false by lia. apply IH. intros y I. apply H. right; exact I.
Qed.
Lemma merge_weave k : forall n m acc, (length n + length m <= k)%nat -> sorted n -> sorted m ->
  (forall a c, In a acc -> In c n -> ccc a < ccc c) -> weave acc n m (merge m n).
Proof.
  induction k as [|k IH]; intros n m acc K N M A.
  - destruct n, m; cbn in K; try lia. constructor.
  - destruct n as [|c n].
    + destruct m as [|x m]; [constructor|]. unfold merge. cbn [fold_left ins]. fold (merge m [x]). cbn [sorted] in M. destruct M as (_ & M1 & M2).
      rewrite merge_head by exact M1. apply W_m. apply IH; [cbn in *; lia|exact I|exact M2|]. intros a c _ [].
    + destruct m as [|x m].
      * cbn. apply W_n; [intros a Ia; apply A; [exact Ia|left; reflexivity]|]. cbn [sorted] in N. apply (IH n [] acc); [cbn in *; lia|tauto|exact I|].
        intros a y Ia Iy. apply A; [exact Ia|right; exact Iy].
      * cbn [sorted] in N, M. destruct N as (N0 & N1 & N2), M as (M0 & M1 & M2). destruct (Z_le_gt_dec (ccc c) (ccc x)) as [L|G].
        -- rewrite merge_head; [|intros y [->|Iy]; [exact L|specialize (M1 y Iy); lia]]. apply W_n; [intros a Ia; apply A; [exact Ia|left; reflexivity]|].
           apply IH; [cbn in *; lia|exact N2|cbn [sorted]; auto|]. intros a y Ia Iy. apply A; [exact Ia|right; exact Iy].
        -- assert (E : merge (x :: m) (c :: n) = x :: merge m (c :: n)).
           { unfold merge. cbn [fold_left ins]. replace (ccc c >? ccc x) with true by lia. fold (merge m (x :: c :: n)). apply merge_head. exact M1. }
           rewrite E. apply W_m. apply IH; [cbn in *; lia|cbn [sorted]; auto|exact M2|].
           intros a y Ia Iy. apply in_app_or in Ia as [Ia|[->|[]]]; [apply A; assumption|]. destruct Iy as [->|Iy]; [lia|]. specialize (N1 y Iy). lia.
Qed.

Lemma ofold_starters z : forall pre run, Forall (fun c => ccc c = 0) z -> z <> [] -> fold_left ostep z (pre, run) = (pre ++ run ++ z, []).
Proof.
  induction z as [|c z IH]; intros pre run F N; [congruence|]. inversion_clear F as [|? ? F1 F2]. cbn [fold_left ostep]. rewrite F1. cbn [Z.eqb].
  destruct z as [|d z]; [reflexivity|]. rewrite IH by (assumption || discriminate). rewrite <- !app_assoc. reflexivity.
Qed.
Lemma ofold_nonstarters m : forall pre run, Forall nonstarter m -> fold_left ostep m (pre, run) = (pre, merge m run).
Proof.
  induction m as [|c m IH]; intros pre run F; [reflexivity|]. inversion_clear F as [|? ? F1 F2]. cbn [fold_left ostep]. unfold nonstarter in F1.
  replace (ccc c =? 0) with false by lia. rewrite IH by exact F2. reflexivity.
Qed.
Lemma merge_sorted n : sorted n -> merge n [] = n.
Proof.
  assert (G : forall n r, sorted (r ++ n) -> merge n r = r ++ n).
  { clear n. induction n as [|c n IH]; intros r S; [rewrite app_nil_r; reflexivity|]. unfold merge. cbn [fold_left]. fold (merge n (ins c r)).
    rewrite ins_last.
    - rewrite IH; rewrite <- app_assoc; [reflexivity|exact S].
    - intros x I. induction r as [|y r IHr]; [destruct I|]. cbn [app sorted] in S. destruct S as (_ & S1 & S2). destruct I as [->|I]; [|auto].
      apply S1. apply in_or_app. right. left. reflexivity. }
  intros S. apply (G n []). exact S.
Qed.
Lemma merge_app a b r : merge (a ++ b) r = merge b (merge a r).
Proof. apply fold_left_app. Qed.
Lemma nondecreasing_split t : nondecreasing 0 t -> exists z n, t = z ++ n /\ Forall (fun c => ccc c = 0) z /\ sorted n.
Proof.
  assert (S : forall t last, 0 < last -> nondecreasing last t -> sorted t /\ forall x, In x t -> last <= ccc x).
  { clear t. induction t as [|c t IH]; intros last P H; [split; [exact I|intros x []]|]. cbn [nondecreasing] in H. destruct H as [H1 H2].
    destruct (IH (ccc c) ltac:(lia) H2) as [S1 S2]. cbn [sorted]. split; [split; [lia|auto]|]. intros x [->|I]; [exact H1|]. specialize (S2 x I). lia. }
  induction t as [|c t IH]; intros H; [exists [], []; repeat split; constructor|]. cbn [nondecreasing] in H. destruct H as [H1 H2].
  destruct (ccc c =? 0) eqn:E.
  - assert (C : ccc c = 0) by lia. rewrite C in H2. destruct (IH H2) as (z & n & -> & Z & N). exists (c :: z), n. repeat split; auto.
  - exists [], (c :: t). split; [reflexivity|]. split; [constructor|]. destruct (S t (ccc c) ltac:(lia) H2) as [S1 S2]. cbn [sorted]. split; [lia|auto].
Qed.
Lemma joins_app a : forall l b x, joins l (a ++ b) x -> exists y, joins l a y /\ joins y b x.
Proof.
  induction a as [|c a IH]; intros l b x J; [exists l; split; [reflexivity|exact J]|]. cbn [app joins] in *. destruct J as (q & Q & J).
  destruct (IH _ _ _ J) as (y & Y1 & Y2). exists y. split; [exists q; auto|exact Y2].
Qed.
Lemma joins_starters z : forall l x pre, ccc l = 0 -> Forall (fun c => ccc c = 0) z -> joins l z x -> ccc x = 0 /\ fold_left cst z (CS pre l []) = CS pre x [].
Proof.
  induction z as [|c z IH]; intros l x pre L F J; cbn [joins] in J; [subst; auto|]. destruct J as (q & Q & J). inversion_clear F as [|? ? F1 F2].
  cbn [fold_left]. unfold cst at 2. cbn [cstep cblocked existsb]. rewrite Q. apply IH; [exact (join_starter _ _ _ L Q)|exact F2|exact J].
Qed.
Lemma sorted_nonstarter m : sorted m -> Forall nonstarter m.
Proof. induction m as [|c m IH]; intros S; [constructor|]. cbn [sorted] in S. constructor; [unfold nonstarter; lia|tauto]. Qed.

Definition quick (c : Z) : Prop := qc_value nfc_qc_data c = None.
Lemma quick_inert m : Forall quick m -> Forall inert m.
Proof. intros F. eapply Forall_impl; [|exact F]. intros c Q. exact (nfc_qc_inert c Q). Qed.
Lemma quick_plain m : Forall quick m -> Forall nonstarter m -> fds m = m.
Proof.
  intros Q N. induction m as [|c m IH]; [reflexivity|]. inversion_clear Q as [|? ? Q1 Q2]. inversion_clear N as [|? ? N1 N2]. rewrite fds_cons, IH by assumption.
  destruct (nfc_qc_yes c Q1) as [X _]. rewrite (X N1). reflexivity.
Qed.
(** One segment: a starter and what follows it. *)
Lemma quick_segment x mids : quick x -> ccc x = 0 -> Forall quick mids -> sorted mids ->
  forall pre run st, cwf st -> exists M run',
    fold_left ostep (fds (x :: mids)) (pre, run) = (pre ++ run ++ M, run') /\
    fold_left cst (M ++ run') st = CS (cflat st) x mids.
Proof.
  intros Q X QM SM pre run st W. pose proof (sorted_nonstarter _ SM) as NM. destruct (nfc_qc_yes x Q) as [_ Y].
  destruct (Y X) as (d & t & E & D & I & N & J). destruct (nondecreasing_split _ N) as (z & n & -> & Z & SN).
  destruct (joins_app _ _ _ _ J) as (y & J1 & J2). pose proof (sorted_nonstarter _ SN) as NN.
  exists (d :: z), (merge mids n). rewrite fds_cons, E, quick_plain by assumption.
  replace ((d :: z ++ n) ++ mids) with ((d :: z) ++ n ++ mids) by (cbn; rewrite <- app_assoc; reflexivity).
  rewrite (fold_left_app ostep (d :: z)), ofold_starters by (try discriminate; constructor; assumption).
  rewrite ofold_nonstarters by (apply Forall_app; auto). rewrite merge_app, merge_sorted by exact SN. split; [reflexivity|].
  cbn [app fold_left]. replace (cst st d) with (CS (cflat st) d []).
  - rewrite fold_left_app. destruct (joins_starters z d y (cflat st) D Z J1) as [YS ->].
    apply (weave_feed [] n mids (merge mids n)); auto; [|apply quick_inert; exact QM].
    apply (merge_weave (length n + length mids)); auto. intros a c [].
  - destruct st as [out|p l m]; unfold cst; cbn [cstep cflat]; [rewrite D; reflexivity|]. destruct W as [L MF].
    rewrite (I l L). unfold ckeep. rewrite D. cbn [Z.eqb]. destruct (cblocked m d); reflexivity.
Qed.
(** Splitting a string into segments *)
Definition seg (p : Z * list Z) : list Z := fst p :: snd p.
Lemma segments s : ordered s -> exists m segs, s = m ++ flat_map seg segs /\ sorted m /\ Forall (fun p => ccc (fst p) = 0 /\ sorted (snd p)) segs.
Proof.
  induction s as [|c s IH]; intros O; [exists [], []; repeat split; constructor|]. apply ordered_cons in O as [O1 O2].
  destruct (IH O2) as (m & segs & -> & SM & F). destruct (ccc c =? 0) eqn:C.
  - exists [], ((c, m) :: segs). split; [reflexivity|]. split; [exact I|]. constructor; [split; [cbn; lia|exact SM]|exact F].
  - exists (c :: m), segs. split; [reflexivity|]. split; [|exact F]. pose proof (ccc_nonneg c). destruct m as [|x m]; [cbn; split; [lia|]; split; [intros y []|exact I]|].
    cbn [app] in O1. pose proof SM as (X1 & X2 & _). cbn [sorted]. split; [lia|]. split; [|exact SM]. intros y [->|Iy]; [lia|]. specialize (X2 y Iy). lia.
Qed.
Lemma quick_segments segs : Forall (fun p => ccc (fst p) = 0 /\ sorted (snd p)) segs -> Forall quick (flat_map seg segs) ->
  forall st0 st, cwf st -> exists M,
    oflat (fold_left ostep (fds (flat_map seg segs)) st0) = oflat st0 ++ M /\ cflat (fold_left cst M st) = cflat st ++ flat_map seg segs.
Proof.
  induction 1 as [|[x mids] segs [X S] _ IH]; intros Q st0 st W.
  - exists []. cbn. rewrite !app_nil_r. auto.
  - cbn [fst snd] in X, S. change (flat_map seg ((x, mids) :: segs)) with ((x :: mids) ++ flat_map seg segs) in *. apply Forall_app in Q as [Q1 Q2]. inversion_clear Q1 as [|? ? Qx Qm]. rewrite fds_app, fold_left_app.
    destruct st0 as [pre run]. destruct (quick_segment x mids Qx X Qm S pre run st W) as (M & run' & E1 & E2). rewrite E1.
    destruct (IH Q2 (pre ++ run ++ M, run') (CS (cflat st) x mids) ltac:(split; [exact X|apply sorted_nonstarter; exact S])) as (M' & E3 & E4).
    exists ((M ++ run') ++ M'). rewrite E3. unfold oflat. cbn [fst snd]. split; [rewrite <- !app_assoc; reflexivity|].
    rewrite fold_left_app, E2, E4. cbn [cflat]. rewrite <- !app_assoc. reflexivity.
Qed.
Lemma nfc_quick s : Forall quick s -> ordered s -> nfc s s.
Proof.
  intros Q O. apply nfc_iff. destruct (segments s O) as (m & segs & -> & SM & F). apply Forall_app in Q as [Qm Qs].
  pose proof (sorted_nonstarter _ SM) as NM. unfold osort. rewrite fds_app, fold_left_app, (quick_plain m Qm NM), ofold_nonstarters, merge_sorted by assumption.
  destruct (quick_segments segs F Qs ([], m) (CI m) NM) as (M & E1 & E2). rewrite E1. unfold oflat. cbn [fst snd app]. unfold composed. rewrite fold_left_app.
  replace (fold_left cst m (CI [])) with (CI m); [rewrite E2; reflexivity|]. clear - NM.
  assert (G : forall m out, Forall nonstarter m -> fold_left cst m (CI out) = CI (out ++ m)).
  { clear. induction m as [|c m IH]; intros out N; [rewrite app_nil_r; reflexivity|]. inversion_clear N as [|? ? N1 N2]. cbn [fold_left]. unfold cst at 2. cbn [cstep].
    unfold nonstarter in N1. replace (ccc c =? 0) with false by lia. rewrite IH by exact N2. rewrite <- app_assoc. reflexivity. }
  symmetry. apply (G m []). exact NM.
Qed.
