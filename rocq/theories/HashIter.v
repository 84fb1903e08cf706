(** Proofs about hash tables that are changed while they are traversed. *)
From Verif Require Import Base Heap ListModel ListSpec ListProofs HashModel HashSpec HashProofs HashIterSpec.
From Coq Require Import ZifyBool.

(** * Elements in the order of the traversal *)

Lemma ents_split_at bs ys x zs : ents bs = ys ++ x :: zs ->
  exists B1 l pre post B2, bs = B1 ++ (l, pre ++ x :: post) :: B2 /\ ys = ents B1 ++ pre /\ zs = post ++ ents B2.
Proof.
  revert ys; induction bs as [|[l xs] bs IH]; intros ys E; [destruct ys; discriminate|].
  rewrite ents_cons in E. cbn [snd] in E.
  assert (C : (exists r, ys = xs ++ r /\ ents bs = r ++ x :: zs) \/ (exists post, xs = ys ++ x :: post /\ zs = post ++ ents bs)).
  { clear IH. revert ys E; induction xs as [|y xs IH]; intros ys E; [left; exists ys; auto|].
    destruct ys as [|y' ys]; injection E as -> E; [right; exists xs; auto|].
    destruct (IH _ E) as [(r & -> & R)|(post & -> & R)]; [left; exists r; auto|right; exists post; auto]. }
  destruct C as [(r & -> & R)|(post & -> & R)].
  - destruct (IH _ R) as (B1 & l' & pre & post & B2 & -> & -> & ->). exists ((l, xs) :: B1), l', pre, post, B2.
    rewrite ents_cons, <- app_assoc. auto.
  - exists [], l, ys, post, bs. auto.
Qed.
Lemma ents_at B1 l xs B2 : ents (B1 ++ (l, xs) :: B2) = ents B1 ++ xs ++ ents B2.
Proof. rewrite ents_app, ents_cons. reflexivity. Qed.

Lemma moved_refl t arr bs h : moved t arr bs bs h h 0.
Proof. constructor; intros x; tauto. Qed.
Lemma moved_trans t arr b1 b2 b3 h1 h2 h3 : moved t arr b1 b2 h1 h2 0 -> moved t arr b2 b3 h2 h3 0 -> moved t arr b1 b3 h1 h3 0.
Proof.
  intros [A1 A2 A3] [B1 B2 B3].
  assert (D : forall x, In x (fp t arr b2) \/ ~ In x (fp t arr b2)) by (intros x; destruct (in_dec Z.eq_dec x (fp t arr b2)); auto).
  assert (A3' : forall x, In x (fp t arr b1) -> ~ In x (fp t arr b2) -> get h2 x = None).
  { intros x X Y. destruct (A3 x X Y) as [Q|[-> Q]]; [exact Q|reflexivity]. }
  assert (B3' : forall x, In x (fp t arr b2) -> ~ In x (fp t arr b3) -> get h3 x = None).
  { intros x X Y. destruct (B3 x X Y) as [Q|[-> Q]]; [exact Q|reflexivity]. }
  constructor; intros x X Y.
  - destruct (D x) as [E|E]; [rewrite B3', A2 by auto; reflexivity|rewrite B1, A1 by auto; reflexivity].
  - destruct (D x) as [E|E]; [auto|]. rewrite <- A1 by auto. auto.
  - left. destruct (D x) as [E|E]; [auto|]. rewrite B1 by auto. auto.
Qed.
Lemma moved_drop t arr b1 b2 h h1 e : moved t arr b1 b2 h h1 e -> In e (fp t arr b1) -> ~ In e (fp t arr b2) ->
  moved t arr b1 b2 h (drop_cell h1 e) 0.
Proof.
  intros [M1 M2 M3] He He'. constructor.
  - intros x X Y. assert (x <> e) by congruence. gs. auto.
  - exact M2.
  - intros x X Y. left. destruct (Z.eq_dec x e) as [->|N]; [gs; reflexivity|]. gs. destruct (M3 x X Y) as [Q|[Q _]]; [exact Q|congruence].
Qed.

Section Table.
Context (fn : code) (hash cmp : Z).
Notation is_ht := (is_ht True fn hash cmp).
Notation history h t bs := (ht_history fn cmp h t (map assoc_of (ents bs))).

Lemma elem_in_fp h t arr bs x : is_ht h t arr bs -> In x (ents bs) -> In (n_he x) (fp t arr bs).
Proof using.
  intros I Hx. destruct (split_bucket _ _ _ _ _ _ _ _ _ (ih_buckets _ _ _ _ _ _ _ _ I) Hx) as (C1 & [l xs] & C2 & -> & W & B).
  right; right. rewrite all_cells_app, all_cells_cons, !in_app_iff. right; left. destruct B as [[_ B]|[B _]]; [rewrite B in W; destruct W|].
  simpl in *. rewrite cells_eq by (apply (il_nonnull _ _ _ _ B); left; reflexivity). right. apply in_app_iff. right. apply in_map. exact W.
Qed.
Lemma elem_read h t arr bs x : is_ht h t arr bs -> In x (ents bs) ->
  n_he x <> 0 /\ hash_elem_get_key (n_he x) h = Ok (n_key x, h) /\ hash_elem_get_value (n_he x) h = Ok (n_val x, h).
Proof using.
  intros I Hx. destruct (elem_at _ _ _ _ _ _ _ _ _ I Hx) as (i & G). destruct (elem_readable _ _ _ _ G) as (A & B & C).
  split; [|split; [exact B|exact C]]. eapply get_nonnull; eauto.
Qed.

(** * Removing *)

Definition stays (p : Z -> Z -> bool) (x : ent) : bool := negb (p (n_key x) (n_val x)).
Lemma keep_assoc p xs : keep p (map assoc_of xs) = map assoc_of (filter (stays p) xs).
Proof using.
  induction xs as [|x xs IH]; [reflexivity|]. unfold keep in *. cbn [map filter]. unfold stays at 1. cbn [assoc_of a_key a_value fst snd].
  destruct (p (n_key x) (n_val x)); cbn [negb]; [exact IH|]. cbn [map]. f_equal. exact IH.
Qed.
Lemma take_incl h t arr B1 l pre x post B2 : is_ht h t arr (B1 ++ (l, pre ++ x :: post) :: B2) ->
  incl (fp t arr (B1 ++ (l, pre ++ post) :: B2)) (fp t arr (B1 ++ (l, pre ++ x :: post) :: B2)).
Proof using.
  intros I. destruct (index_mid _ _ _ _ _ _ _ _ _ _ _ x I) as (_ & _ & _ & Nl); [apply in_app_iff; right; left; reflexivity|].
  pose proof (cells_mid l pre x post Nl) as Pc. intros y. unfold fp. rewrite !all_cells_app, !all_cells_cons. simpl. rewrite !in_app_iff.
  intros [Y|[Y|[Y|[Y|Y]]]]; auto. right; right; right; left. apply (Permutation_in _ (Permutation_sym Pc)). right; right; exact Y.
Qed.
Lemma remove_loop_ok p t arr xs : forall ys h bs n, is_ht h t arr bs -> ents bs = ys ++ xs -> history h t bs -> (length xs < n)%nat ->
  exists h' bs', remove_loop n t p (first_of xs) h = Ok (map n_he xs, h') /\ is_ht h' t arr bs' /\ ents bs' = ys ++ filter (stays p) xs /\
    history h' t bs' /\ moved t arr bs bs' h h' 0 /\ incl (fp t arr bs') (fp t arr bs) /\
    (forall x, In x xs -> stays p x = false -> get h' (n_he x) = None).
Proof using.
  induction xs as [|x xs IH]; intros ys h bs n I E H Hn; (destruct n as [|n]; [simpl in Hn; lia|]).
  - exists h, bs. split; [reflexivity|]. split; [exact I|]. split; [exact E|]. split; [exact H|]. split; [apply moved_refl|].
    split; [intros y Y; exact Y|]. intros x [].
  - assert (Hx : In x (ents bs)) by (rewrite E; apply in_app_iff; right; left; reflexivity).
    destruct (elem_read _ _ _ _ _ I Hx) as (N & Gk & Gv). destruct (get_other_ok _ _ _ _ _ _ _ _ _ _ _ I E) as [Go _].
    cbn [first_of remove_loop]. rewrite (proj2 (Z.eqb_neq _ _) N).
    rewrite (bnd_Ok _ _ _ _ _ Gk), (bnd_Ok _ _ _ _ _ Gv), (bnd_Ok _ _ _ _ _ Go). cbn [filter].
    destruct (p (n_key x) (n_val x)) eqn:Ep; (assert (Sx : stays p x = negb (p (n_key x) (n_val x))) by reflexivity); rewrite Ep in Sx;
      cbn [negb] in Sx; rewrite Sx.
    + destruct (ents_split_at _ _ _ _ E) as (B1 & l & pre & post & B2 & -> & -> & ->).
      destruct (remove_at _ _ _ _ _ _ _ _ _ _ _ _ _ I) as (h1 & R & I1 & M1 & G1 & N1).
      rewrite (bnd_Ok _ _ _ _ _ R).
      assert (H1 : history h1 t (B1 ++ (l, pre ++ post) :: B2)).
      { eapply HH_op; [exact H|]. eapply HO_remove; [|exact R].
        exact (Permutation_map assoc_of (ents_take B1 l pre x post B2)). }
      destruct (IH (ents B1 ++ pre) h1 _ n I1) as (h2 & bs2 & L & I2 & E2 & H2 & M2 & J2 & G2).
      { rewrite ents_at, <- !app_assoc. reflexivity. }
      { exact H1. }
      { simpl in Hn. lia. }
      exists h2, bs2. rewrite (bnd_Ok _ _ _ _ _ L). split; [reflexivity|]. split; [exact I2|]. split; [exact E2|]. split; [exact H2|].
      split; [eapply moved_trans; eassumption|]. split; [eapply incl_tran; [exact J2|]; eapply take_incl; exact I|].
      intros y [<-|Hy] Sy; [|auto]. destruct M2 as [M2 _ _]. rewrite M2; auto.
    + rewrite bnd_ret.
      destruct (IH (ys ++ [x]) h bs n I) as (h2 & bs2 & L & I2 & E2 & H2 & M2 & J2 & G2).
      { rewrite <- app_assoc. exact E. }
      { exact H. }
      { simpl in Hn. lia. }
      exists h2, bs2. rewrite (bnd_Ok _ _ _ _ _ L). split; [reflexivity|]. split; [exact I2|]. split; [rewrite E2, <- app_assoc; reflexivity|].
      split; [exact H2|]. split; [exact M2|]. split; [exact J2|]. intros y [<-|Hy] Sy; [congruence|auto].
Qed.

(** * Replacing *)

Lemma put_at h t arr B1 l pre y post B2 v : is_ht h t arr (B1 ++ (l, pre ++ y :: post) :: B2) ->
  (n_val y = v -> hash_table_put fn t (n_key y) v h = Ok (0, h)) /\
  (n_val y <> v -> exists x h', hash_table_put fn t (n_key y) v h = Ok (n_he y, h') /\ n_key x = n_key y /\ n_val x = v /\
    is_ht h' t arr (B1 ++ (l, (pre ++ post) ++ [x]) :: B2) /\
    moved t arr (B1 ++ (l, pre ++ y :: post) :: B2) (B1 ++ (l, (pre ++ post) ++ [x]) :: B2) h h' (n_he y) /\
    get h' (n_he y) = get h (n_he y) /\ n_he x <> n_he y /\ ~ In (n_he y) (fp t arr (B1 ++ (l, (pre ++ post) ++ [x]) :: B2))).
Proof using.
  intros I. pose proof (ih_legal _ _ _ _ _ _ _ _ I Logic.I) as Lg. pose proof (ih_distinct _ _ _ _ _ _ _ _ I Logic.I) as Di.
  assert (Hy : In y (ents (B1 ++ (l, pre ++ y :: post) :: B2))).
  { rewrite ents_at. apply in_app_iff. right. rewrite <- app_assoc. apply in_app_iff. right. left. reflexivity. }
  split; [intros V; exact (proj1 (proj2 (put_ok _ _ _ _ _ _ _ _ (n_key y) v Logic.I I)) y Hy (cmp_refl _ _ _ Lg _) V)|].
  intros V.
  destruct (index_mid _ _ _ _ _ _ _ _ _ _ _ y I) as (Hey & Ky & IL & Nl); [apply in_app_iff; right; left; reflexivity|].
  pose proof (ih_cap _ _ _ _ _ _ _ _ I) as HC. pose proof (ih_table _ _ _ _ _ _ _ _ I) as Ht. pose proof (ih_slots _ _ _ _ _ _ _ _ I) as Ha.
  unfold hash_table_put. rewrite (bnd_Ok _ _ _ _ _ (bucket_index_ok _ _ _ _ _ _ _ _ (n_key y) (proj1 HC) Ht)).
  rewrite (Ky Logic.I). rewrite (bnd_Ok _ _ _ _ _ (ld_slot_ok _ _ _ _ _ _ Ht Ha)). cbn [fst].
  rewrite (proj2 (Z.eqb_neq l 0)) by exact Nl. erewrite bnd_Ok by reflexivity. rewrite (bnd_Ok _ _ _ _ _ (get_first_ok _ _ _ IL)).
  destruct (bucket_at _ _ _ _ _ _ _ _ _ _ _ I eq_refl) as [[E1 _]|[_ HE]]; [simpl in E1; congruence|]. cbn [fst snd] in HE.
  destruct (ht_put_loop_ok fn hash cmp h t (zlen B1) l _ _ _ (n_key y) v [] (pre ++ y :: post) (S (length (mem h))) Ht IL) as [G1 _].
  { intros x Hx. apply HE; auto. }
  { apply (ht_fuel _ _ _ IL). }
  assert (A : forall z, In z pre -> call_cmp fn cmp (n_key y) (n_key z) <> 0).
  { intros z Hz C. apply in_split in Hz. destruct Hz as (p1 & p2 & ->).
    assert (P : Permutation (ents (B1 ++ (l, (p1 ++ z :: p2) ++ y :: post) :: B2)) (y :: z :: ents (B1 ++ (l, p1 ++ p2 ++ post) :: B2))).
    { rewrite (ents_take B1 l (p1 ++ z :: p2) y post B2). apply perm_skip. rewrite <- app_assoc. cbn [app]. apply ents_take. }
    pose proof (distinct_perm _ _ _ _ _ Lg P Di) as D. destruct D as [D _]. apply (D z); [left; reflexivity|exact C]. }
  rewrite (G1 y pre post eq_refl A (cmp_refl _ _ _ Lg _)). rewrite (proj2 (Z.eqb_neq _ _) V).
  exact (put_replace _ _ _ _ _ _ _ _ _ _ _ _ _ (n_key y) v I (cmp_refl _ _ _ Lg _)).
Qed.

Lemma update_step h t arr B1 l pre y post B2 g n :
  is_ht h t arr (B1 ++ (l, pre ++ y :: post) :: B2) -> history h t (B1 ++ (l, pre ++ y :: post) :: B2) ->
  (g (n_val y) = n_val y -> update_loop (S n) fn t g (n_he y) h = update_loop n fn t g (first_of (post ++ ents B2)) h) /\
  (g (n_val y) <> n_val y -> exists x h', n_key x = n_key y /\ n_val x = g (n_val y) /\
    is_ht h' t arr (B1 ++ (l, (pre ++ post) ++ [x]) :: B2) /\ history h' t (B1 ++ (l, (pre ++ post) ++ [x]) :: B2) /\
    moved t arr (B1 ++ (l, pre ++ y :: post) :: B2) (B1 ++ (l, (pre ++ post) ++ [x]) :: B2) h h' 0 /\
    update_loop (S n) fn t g (n_he y) h = update_loop n fn t g (first_of (post ++ ents B2)) h').
Proof using.
  intros I H. set (bs := B1 ++ (l, pre ++ y :: post) :: B2) in *.
  assert (E : ents bs = (ents B1 ++ pre) ++ y :: post ++ ents B2) by (subst bs; rewrite ents_at, <- !app_assoc; reflexivity).
  assert (Hy : In y (ents bs)) by (rewrite E; apply in_app_iff; right; left; reflexivity).
  destruct (elem_read _ _ _ _ _ I Hy) as (N & Gk & Gv). destruct (get_other_ok _ _ _ _ _ _ _ _ _ _ _ I E) as [Go _].
  destruct (put_at _ _ _ _ _ _ _ _ _ (g (n_val y)) I) as [PS PR].
  assert (U : update_loop (S n) fn t g (n_he y) h =
    (let! old := hash_table_put fn t (n_key y) (g (n_val y)) in
     do! (if old =? 0 then ret tt else destroy_hash_element old) in update_loop n fn t g (first_of (post ++ ents B2))) h).
  { cbn [update_loop]. rewrite (proj2 (Z.eqb_neq _ _) N). rewrite (bnd_Ok _ _ _ _ _ Gk), (bnd_Ok _ _ _ _ _ Gv), (bnd_Ok _ _ _ _ _ Go). reflexivity. }
  rewrite U. split.
  - intros V. rewrite (bnd_Ok _ _ _ _ _ (PS (eq_sym V))). cbn [Z.eqb]. rewrite bnd_ret. reflexivity.
  - intros V. destruct (PR (fun X => V (eq_sym X))) as (x & h1 & P & Kx & Vx & I1 & M1 & G1 & Nxy & NN).
    rewrite (bnd_Ok _ _ _ _ _ P). rewrite (proj2 (Z.eqb_neq _ _) N).
    destruct (elem_at _ _ _ _ _ _ _ _ _ I Hy) as (i & G). rewrite <- G1 in G.
    exists x, (drop_cell h1 (n_he y)). split; [exact Kx|]. split; [exact Vx|].
    assert (F : forall z, In z (fp t arr (B1 ++ (l, (pre ++ post) ++ [x]) :: B2)) -> get (drop_cell h1 (n_he y)) z = get h1 z).
    { intros z Hz. assert (z <> n_he y) by congruence. gs. reflexivity. }
    split; [eapply ht_frame; [exact I1|exact F]|]. split; [|split].
    + eapply HH_other with (h := h1); [|intros z Hz; apply F; rewrite <- (owned_fp _ _ _ _ _ _ _ _ z I1); exact Hz].
      assert (Hx : In x (ents (B1 ++ (l, (pre ++ post) ++ [x]) :: B2))).
      { rewrite ents_at. apply in_app_iff. right. rewrite <- app_assoc. apply in_app_iff. right. left. reflexivity. }
      eapply HH_perm; [eapply HH_op; [exact H|]|].
      * eapply HO_put_replace with (k := n_key y) (v := g (n_val y)) (e' := n_he y) (k' := n_key y) (w := n_val y);
          [exact (Permutation_map assoc_of (ents_take B1 l pre y post B2))| |congruence|exact P|].
        -- apply (cmp_refl _ _ _ (ih_legal _ _ _ _ _ _ _ _ I Logic.I)).
        -- apply (get_entry _ _ _ _ _ _ _ _ _ _ Logic.I I1 Hx). rewrite Kx. apply (cmp_refl _ _ _ (ih_legal _ _ _ _ _ _ _ _ I Logic.I)).
      * rewrite <- Vx, <- Kx. change ((n_he x, n_key x, n_val x)) with (assoc_of x). rewrite <- (map_cons assoc_of). apply Permutation_map.
        pose proof (ents_take B1 l (pre ++ post) x [] B2) as Q. rewrite app_nil_r in Q. symmetry. exact Q.
    + eapply moved_drop; [exact M1|exact (elem_in_fp _ _ _ _ _ I Hy)|exact NN].
    + unfold destroy_hash_element. rewrite (step_free _ _ _ _ G). reflexivity.
Qed.

(** A bucket with two elements is never left. *)
Lemma update_spins g t arr (D : forall v, g v <> v) : forall n h B1 l pre y post B2, post <> [] ->
  is_ht h t arr (B1 ++ (l, pre ++ y :: post) :: B2) -> history h t (B1 ++ (l, pre ++ y :: post) :: B2) ->
  update_loop n fn t g (n_he y) h = NoFuel.
Proof using.
  induction n as [|n IH]; intros h B1 l pre y post B2 Hp I H; [reflexivity|].
  destruct (proj2 (update_step _ _ _ _ _ _ _ _ _ g n I H) (D _)) as (x & h' & _ & _ & I' & H' & _ & ->).
  destruct post as [|z post]; [congruence|]. cbn [app first_of].
  replace ((pre ++ z :: post) ++ [x]) with (pre ++ z :: (post ++ [x])) in * by (rewrite <- app_assoc; reflexivity).
  eapply IH; [|exact I'|exact H']. destruct post; discriminate.
Qed.
Lemma update_never g t arr (D : forall v, g v <> v) : forall B2 n h B1, (exists b, In b B2 /\ (1 < length (snd b))%nat) ->
  is_ht h t arr (B1 ++ B2) -> history h t (B1 ++ B2) -> update_loop n fn t g (first_of (ents B2)) h = NoFuel.
Proof using.
  induction B2 as [|[l xs] B2 IH]; intros n h B1 (b & Hb & Lb) I H; [destruct Hb|].
  rewrite ents_cons. cbn [snd]. destruct xs as [|y post].
  - cbn [app]. destruct Hb as [<-|Hb]; [simpl in Lb; lia|]. apply (IH n h (B1 ++ [(l, [])])); [eauto| |]; rewrite <- app_assoc; assumption.
  - cbn [app first_of]. destruct post as [|z post].
    + destruct n as [|n]; [reflexivity|]. destruct Hb as [<-|Hb]; [simpl in Lb; lia|].
      destruct (proj2 (update_step h t arr B1 l [] y [] B2 g n I H) (D _)) as (x & h' & _ & _ & I' & H' & _ & ->).
      cbn [app] in *. apply (IH n h' (B1 ++ [(l, [x])])); [eauto| |]; rewrite <- app_assoc; assumption.
    + apply (update_spins g t arr D n h B1 l [] y (z :: post) B2); [discriminate|exact I|exact H].
Qed.

(** * Loops that end *)

Definition pair_of (x : ent) : Z * Z := (n_key x, n_val x).
Definition after (g : Z -> Z) (x : ent) : Z * Z := (n_key x, g (n_val x)).
(** What is wrong so far with the elements that are still to be visited. *)
Fixpoint unfixed (g : Z -> Z) (xs : list ent) : nat :=
  match xs with [] => 0 | x :: xs => ((if Z.eq_dec (g (n_val x)) (n_val x) then 0 else 1) + unfixed g xs)%nat end.
Lemma unfixed_app g xs ys : unfixed g (xs ++ ys) = (unfixed g xs + unfixed g ys)%nat.
Proof using. induction xs as [|x xs IH]; [reflexivity|]. cbn [app unfixed]. rewrite IH. lia. Qed.
Lemma unfixed_le g xs : (unfixed g xs <= length xs)%nat.
Proof using. induction xs as [|x xs IH]; [reflexivity|]. cbn [unfixed length]. destruct (Z.eq_dec _ _); lia. Qed.

(** Through a bucket, in which the elements [xs] are still to be visited. *)
Lemma update_bucket g t arr l B1 B2 : forall d xs n h pre,
  (length xs + unfixed g xs <= d)%nat -> ((forall v, g (g v) = g v) \/ (length xs <= 1)%nat) -> (d <= n)%nat ->
  is_ht h t arr (B1 ++ (l, pre ++ xs) :: B2) -> history h t (B1 ++ (l, pre ++ xs) :: B2) ->
  exists h' n' xs', (n - d <= n')%nat /\ is_ht h' t arr (B1 ++ (l, xs') :: B2) /\ history h' t (B1 ++ (l, xs') :: B2) /\
    moved t arr (B1 ++ (l, pre ++ xs) :: B2) (B1 ++ (l, xs') :: B2) h h' 0 /\
    Permutation (map pair_of xs') (map pair_of pre ++ map (after g) xs) /\
    update_loop n fn t g (first_of (xs ++ ents B2)) h = update_loop n' fn t g (first_of (ents B2)) h'.
Proof using.
  induction d as [|d IH]; intros xs n h pre Hd Hg Hn I H.
  - destruct xs; [|simpl in Hd; lia]. rewrite app_nil_r in *. exists h, n, pre. split; [lia|]. split; [exact I|]. split; [exact H|].
    split; [apply moved_refl|]. split; [rewrite app_nil_r; reflexivity|reflexivity].
  - destruct xs as [|y post].
    { rewrite app_nil_r in *. exists h, n, pre. split; [lia|]. split; [exact I|]. split; [exact H|].
      split; [apply moved_refl|]. split; [rewrite app_nil_r; reflexivity|reflexivity]. }
    destruct n as [|n]; [lia|]. destruct (update_step _ _ _ _ _ _ _ _ _ g n I H) as [US UR]. cbn [length unfixed] in Hd.
    cbn [app first_of]. destruct (Z.eq_dec (g (n_val y)) (n_val y)) as [V|V].
    + rewrite (US V). replace (pre ++ y :: post) with ((pre ++ [y]) ++ post) in * by (rewrite <- app_assoc; reflexivity).
      destruct (IH post n h (pre ++ [y])) as (h' & n' & xs' & Ln & I' & H' & M' & P' & L'); [lia|destruct Hg; [auto|right; simpl in *; lia]|lia|exact I|exact H|].
      exists h', n', xs'. split; [lia|]. split; [exact I'|]. split; [exact H'|]. split; [exact M'|]. split; [|exact L'].
      rewrite P', map_app. cbn [map]. unfold after at 2. rewrite V. change (n_key y, n_val y) with (pair_of y). rewrite <- app_assoc. reflexivity.
    + destruct (UR V) as (x & h1 & Kx & Vx & I1 & H1 & M1 & ->).
      destruct post as [|z post].
      * cbn [app]. rewrite app_nil_r in I1, H1, M1. exists h1, n, (pre ++ [x]). split; [lia|]. split; [exact I1|]. split; [exact H1|].
        split; [exact M1|]. split; [|reflexivity]. rewrite map_app. cbn [map]. unfold pair_of at 2, after. rewrite Kx, Vx. reflexivity.
      * destruct Hg as [Hg|Hg]; [|simpl in Hg; lia].
        assert (Fx : unfixed g [x] = 0%nat) by (cbn [unfixed]; rewrite Vx, Hg; destruct (Z.eq_dec _ _); [reflexivity|congruence]).
        rewrite <- app_assoc in I1, H1, M1.
        destruct (IH ((z :: post) ++ [x]) n h1 pre) as (h' & n' & xs' & Ln & I' & H' & M' & P' & L');
          [rewrite app_length, unfixed_app, Fx; cbn [length unfixed] in *; lia|auto|lia|exact I1|exact H1|].
        exists h', n', xs'. split; [lia|]. split; [exact I'|]. split; [exact H'|]. split; [eapply moved_trans; eassumption|]. split.
        -- rewrite P'. apply Permutation_app_head. rewrite map_app. cbn [map]. unfold after at 3. rewrite Kx, Vx, Hg.
           change (n_key y, g (n_val y)) with (after g y). rewrite Permutation_app_comm. reflexivity.
        -- rewrite <- L'. reflexivity.
Qed.
Lemma update_rest g t arr : forall B2 n h B1, (2 * length (ents B2) < n)%nat ->
  ((forall v, g (g v) = g v) \/ (forall b, In b B2 -> (length (snd b) <= 1)%nat)) ->
  is_ht h t arr (B1 ++ B2) -> history h t (B1 ++ B2) ->
  exists h' B2', update_loop n fn t g (first_of (ents B2)) h = Ok (tt, h') /\ is_ht h' t arr (B1 ++ B2') /\ history h' t (B1 ++ B2') /\
    moved t arr (B1 ++ B2) (B1 ++ B2') h h' 0 /\ Permutation (map pair_of (ents B2')) (map (after g) (ents B2)).
Proof using.
  induction B2 as [|[l xs] B2 IH]; intros n h B1 Hn Hg I H.
  - exists h, []. destruct n as [|n]; [lia|]. split; [reflexivity|]. split; [exact I|]. split; [exact H|]. split; [apply moved_refl|reflexivity].
  - rewrite ents_cons in Hn |- *. cbn [snd] in Hn |- *. rewrite app_length in Hn. pose proof (unfixed_le g xs).
    destruct (update_bucket g t arr l B1 B2 (length xs + length xs) xs n h []) as (h1 & n1 & xs1 & Ln & I1 & H1 & M1 & P1 & L1);
      [lia|destruct Hg as [Hg|Hg]; [auto|right; exact (Hg (l, xs) (or_introl eq_refl))]|lia|exact I|exact H|].
    destruct (IH n1 h1 (B1 ++ [(l, xs1)])) as (h2 & B2' & L2 & I2 & H2 & M2 & P2).
    { lia. }
    { destruct Hg as [Hg|Hg]; [auto|right; intros b Hb; apply Hg; right; exact Hb]. }
    { rewrite <- app_assoc. exact I1. }
    { rewrite <- app_assoc. exact H1. }
    rewrite <- app_assoc in I2, H2. rewrite <- !app_assoc in M2. cbn [app] in *.
    exists h2, ((l, xs1) :: B2'). split; [rewrite L1; exact L2|]. split; [exact I2|]. split; [exact H2|]. split; [eapply moved_trans; eassumption|].
    rewrite ents_cons. cbn [snd]. rewrite !map_app. apply Permutation_app; assumption.
Qed.
End Table.

(** * In terms of histories *)

Lemma moved_confined fn hash cmp h h' t arr bs bs' : is_ht True fn hash cmp h t arr bs -> is_ht True fn hash cmp h' t arr bs' ->
  moved t arr bs bs' h h' 0 -> confined t h h'.
Proof.
  intros I I' [M1 M2 M3].
  assert (OW : forall x, owned h t x <-> In x (fp t arr bs)) by (intros x; exact (owned_fp _ _ _ _ _ _ _ _ _ I)).
  assert (OW' : forall x, owned h' t x <-> In x (fp t arr bs')) by (intros x; exact (owned_fp _ _ _ _ _ _ _ _ _ I')).
  split; [|split]; intros x; rewrite OW, ?OW'; intros X Y.
  - intros Q. apply Y, M2; assumption.
  - auto.
  - destruct (M3 x X Y) as [Q|[-> _]]; [exact Q|reflexivity].
Qed.
Lemma own_history fn cmp h t m bs : ht_history fn cmp h t m -> holds bs m -> ht_history fn cmp h t (map assoc_of (ents bs)).
Proof. intros H P. eapply HH_perm; [exact H|exact P]. Qed.
Lemma keep_perm p m m' : Permutation m m' -> Permutation (keep p m) (keep p m').
Proof.
  unfold keep. induction 1 as [|x xs ys P IH|x y xs|xs ys zs P IH P' IH']; cbn [filter]; auto.
  - destruct (negb _); [apply perm_skip|]; exact IH.
  - destruct (negb _), (negb _); try reflexivity. apply perm_swap.
  - etransitivity; eassumption.
Qed.

Lemma remove_if_history fn cmp h t m p n : ht_history fn cmp h t m -> (length m < n)%nat ->
  exists es h', remove_if n t p h = Ok (es, h') /\ Permutation es (map a_elem m) /\ ht_history fn cmp h' t (keep p m) /\
    (forall a, In a m -> p (a_key a) (a_value a) = true -> get h' (a_elem a) = None) /\ confined t h h'.
Proof.
  intros H Hn. destruct (history_ht _ _ _ _ _ H) as (hash & arr & bs & I & P). pose proof (own_history _ _ _ _ _ _ H P) as Hb.
  pose proof (Permutation_length P) as L. rewrite map_length in L.
  destruct (remove_loop_ok fn hash cmp p t arr (ents bs) [] h bs n I eq_refl Hb ltac:(lia)) as (h' & bs' & R & I' & E' & H' & M' & _ & G').
  exists (map n_he (ents bs)), h'. unfold remove_if. rewrite (bnd_Ok _ _ _ _ _ (get_any_ok _ _ _ _ _ _ _ _ I)).
  split; [exact R|]. split; [|split; [|split]].
  - rewrite (Permutation_map a_elem P), map_map. apply Permutation_refl'. apply map_ext. reflexivity.
  - eapply HH_perm; [exact H'|]. rewrite E'. cbn [app]. rewrite <- keep_assoc. apply keep_perm. symmetry. exact P.
  - intros a Ha Pa. apply (Permutation_in _ P) in Ha. apply in_map_iff in Ha. destruct Ha as (x & <- & Hx).
    apply (G' x Hx). unfold stays. cbn [assoc_of a_key a_value fst snd] in Pa. rewrite Pa. reflexivity.
  - eapply moved_confined; eassumption.
Qed.

Definition a_pair (a : assoc) : Z * Z := (a_key a, a_value a).
Lemma drain_ok fn hash cmp t arr : forall n h bs, is_ht True fn hash cmp h t arr bs -> ht_history fn cmp h t (map assoc_of (ents bs)) ->
  (length (ents bs) < n)%nat ->
  exists kvs h' bs', drain n t h = Ok (kvs, h') /\ Permutation kvs (map pair_of (ents bs)) /\ is_ht True fn hash cmp h' t arr bs' /\
    ht_history fn cmp h' t [] /\ moved t arr bs bs' h h' 0.
Proof.
  induction n as [|n IH]; intros h bs I H Hn; [lia|]. cbn [drain].
  destruct (pop_any_ok _ _ _ _ _ _ _ _ I) as [A B]. destruct (ents bs) as [|x xs] eqn:E.
  - rewrite (bnd_Ok _ _ _ _ _ (A eq_refl)). exists [], h, bs. split; [reflexivity|]. split; [reflexivity|]. split; [exact I|].
    split; [exact H|apply moved_refl].
  - assert (Hx : In x (ents bs)) by (rewrite E; left; reflexivity).
    destruct (B x xs eq_refl) as (bs1 & h1 & E1 & Q1 & I1 & M1 & G1 & _ & NN). rewrite (bnd_Ok _ _ _ _ _ E1).
    destruct (elem_at _ _ _ _ _ _ _ _ _ I Hx) as (i & G). rewrite <- G1 in G. destruct (elem_readable _ _ _ _ G) as (N & Gk & Gv).
    rewrite (proj2 (Z.eqb_neq _ _) N). rewrite (bnd_Ok _ _ _ _ _ Gk), (bnd_Ok _ _ _ _ _ Gv).
    unfold destroy_hash_element. rewrite (step_free _ _ _ _ G).
    assert (F : forall z, In z (fp t arr bs1) -> get (drop_cell h1 (n_he x)) z = get h1 z).
    { intros z Hz. assert (z <> n_he x) by congruence. gs. reflexivity. }
    destruct (IH (drop_cell h1 (n_he x)) bs1) as (kvs & h' & bs' & R & P & I' & H' & M').
    + eapply ht_frame; [exact I1|exact F].
    + eapply HH_other with (h := h1); [|intros z Hz; apply F; rewrite <- (owned_fp _ _ _ _ _ _ _ _ z I1); exact Hz].
      eapply HH_perm with (m := map assoc_of xs); [|apply Permutation_map; symmetry; exact Q1].
      eapply HH_op; [exact H|]. eapply (HO_pop_any fn cmp t h _ h1 (n_he x) (n_key x) (n_val x)); [|exact E1]. apply Permutation_refl.
    + rewrite (Permutation_length Q1). simpl in Hn. lia.
    + exists ((n_key x, n_val x) :: kvs), h', bs'. rewrite (bnd_Ok _ _ _ _ _ R). split; [reflexivity|].
      split; [cbn [map]; apply perm_skip; rewrite P; apply Permutation_map; exact Q1|]. split; [exact I'|]. split; [exact H'|].
      eapply moved_trans; [|exact M']. eapply moved_drop; [exact M1|exact (elem_in_fp _ _ _ _ _ _ _ _ I Hx)|exact NN].
Qed.
Lemma drain_history fn cmp h t m n : ht_history fn cmp h t m -> (length m < n)%nat ->
  exists kvs h', drain n t h = Ok (kvs, h') /\ Permutation kvs (map a_pair m) /\ ht_history fn cmp h' t [] /\ confined t h h'.
Proof.
  intros H Hn. destruct (history_ht _ _ _ _ _ H) as (hash & arr & bs & I & P). pose proof (own_history _ _ _ _ _ _ H P) as Hb.
  pose proof (Permutation_length P) as L. rewrite map_length in L.
  destruct (drain_ok fn hash cmp t arr n h bs I Hb ltac:(lia)) as (kvs & h' & bs' & R & Q & I' & H' & M').
  exists kvs, h'. split; [exact R|]. split; [|split; [exact H'|eapply moved_confined; eassumption]].
  rewrite Q, (Permutation_map a_pair P), map_map. apply Permutation_refl'. apply map_ext. reflexivity.
Qed.

Lemma two_in {A} (x y : A) xs : In x xs -> In y xs -> x <> y -> (1 < length xs)%nat.
Proof. destruct xs as [|a [|b xs]]; simpl; [tauto|intuition congruence|lia]. Qed.
Lemma update_all_never fn cmp h t m a b rest g : ht_history fn cmp h t m -> Permutation m (a :: b :: rest) ->
  collide fn h t (a_key a) (a_key b) -> (forall v, g v <> v) -> forall n, update_all n fn t g h = NoFuel.
Proof.
  intros H Pm (c & Hc & C) D n. pose proof (unique_history _ _ _ _ _ _ _ _ H Pm) as [Nk _].
  destruct (history_ht _ _ _ _ _ H) as (hash & arr & bs & I & P). pose proof (own_history _ _ _ _ _ _ H P) as Hb.
  unfold update_all. rewrite (bnd_Ok _ _ _ _ _ (get_any_ok _ _ _ _ _ _ _ _ I)).
  apply (update_never fn hash cmp g t arr D bs n h []); [|exact I|exact Hb].
  assert (X : In a (map assoc_of (ents bs)) /\ In b (map assoc_of (ents bs))).
  { split; apply (Permutation_in _ P), (Permutation_in _ (Permutation_sym Pm)); simpl; auto. }
  destruct X as [Xa Xb]. apply in_map_iff in Xa, Xb. destruct Xa as (x & <- & Hx), Xb as (y & <- & Hy). cbn [assoc_of a_key fst snd] in *.
  rewrite (ih_table _ _ _ _ _ _ _ _ I) in Hc. injection Hc as <-. cbn [ht_hash ht_capacity] in C.
  destruct (split_bucket _ _ _ _ _ _ _ _ _ (ih_buckets _ _ _ _ _ _ _ _ I) Hx) as (B1 & bx & B2 & E & Wx & _).
  destruct (split_bucket _ _ _ _ _ _ _ _ _ (ih_buckets _ _ _ _ _ _ _ _ I) Hy) as (C1 & by' & C2 & E' & Wy & _).
  destruct bx as [lx xs], by' as [ly ys]. cbn [snd] in *.
  pose proof I as I'. rewrite E in I. rewrite E' in I'.
  destruct (index_mid _ _ _ _ _ _ _ _ _ _ _ x I Wx) as (_ & Kx & _). destruct (index_mid _ _ _ _ _ _ _ _ _ _ _ y I' Wy) as (_ & Ky & _).
  rewrite <- E in Kx. rewrite <- E' in Ky. specialize (Kx Logic.I). specialize (Ky Logic.I). unfold index_of in *.
  destruct (app_mid_unique B1 B2 C1 C2 (lx, xs) (ly, ys)) as (_ & Q & _); [congruence|congruence|]. injection Q as -> ->.
  exists (ly, ys). split; [rewrite E'; apply in_app_iff; right; left; reflexivity|]. apply (two_in x y); [exact Wx|exact Wy|].
  intros ->. apply Nk. apply (cmp_refl _ _ _ (ih_legal _ _ _ _ _ _ _ _ I Logic.I)).
Qed.

Lemma update_all_ends fn cmp h t m g n : ht_history fn cmp h t m -> (2 * length m < n)%nat ->
  ((forall v, g (g v) = g v) \/ (forall a b rest, Permutation m (a :: b :: rest) -> ~ collide fn h t (a_key a) (a_key b))) ->
  exists m' h', update_all n fn t g h = Ok (tt, h') /\ ht_history fn cmp h' t m' /\
    Permutation (map a_pair m') (map (fun a => (a_key a, g (a_value a))) m) /\ confined t h h'.
Proof.
  intros H Hn Hg. destruct (history_ht _ _ _ _ _ H) as (hash & arr & bs & I & P). pose proof (own_history _ _ _ _ _ _ H P) as Hb.
  pose proof (Permutation_length P) as L. rewrite map_length in L.
  destruct (update_rest fn hash cmp g t arr bs n h []) as (h' & bs' & R & I' & H' & M' & P'); [lia| |exact I|exact Hb|].
  - destruct Hg as [Hg|Hg]; [left; exact Hg|right]. intros [l xs] Hin. cbn [snd]. destruct xs as [|x [|y xs]]; simpl; [lia|lia|exfalso].
    apply in_split in Hin. destruct Hin as (B1 & B2 & ->).
    destruct (index_mid _ _ _ _ _ _ _ _ _ _ _ x I) as (_ & Kx & _); [left; reflexivity|].
    destruct (index_mid _ _ _ _ _ _ _ _ _ _ _ y I) as (_ & Ky & _); [right; left; reflexivity|].
    specialize (Kx Logic.I). specialize (Ky Logic.I). unfold index_of in *.
    apply (Hg (assoc_of x) (assoc_of y) (map assoc_of (xs ++ ents (B1 ++ B2)))).
    + unfold holds in P. rewrite P, (ents_mid B1 l (x :: y :: xs) B2). reflexivity.
    + eexists. split; [exact (ih_table _ _ _ _ _ _ _ _ I)|]. cbn [ht_hash ht_capacity assoc_of a_key fst snd]. congruence.
  - cbn [app] in *. exists (map assoc_of (ents bs')), h'. unfold update_all. rewrite (bnd_Ok _ _ _ _ _ (get_any_ok _ _ _ _ _ _ _ _ I)).
    split; [exact R|]. split; [exact H'|]. split; [|eapply moved_confined; eassumption].
    rewrite map_map. rewrite (Permutation_map (fun a => (a_key a, g (a_value a))) P), map_map. exact P'.
Qed.
