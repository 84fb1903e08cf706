From Verif Require Import Base Heap Sep AvlModel AvlSpec.
From Coq Require Import ZifyBool ZifyNat.

(** Trees with the addresses of their elements. *)
Inductive tree : Type :=
| E
| N (l : tree) (a k v b : Z) (r : tree).
Definition root (t : tree) : Z := match t with E => 0 | N _ a _ _ _ _ => a end.
Fixpoint cells (p : Z) (t : tree) : cells_t :=
  match t with
  | E => []
  | N l a k v b r => (a, CAelem (mk_aelem k v (root l) (root r) p b)) :: cells a l ++ cells a r
  end.

(** Contexts: the path from a subtree up to the root. *)
Inductive frm : Type :=
| FL (a k v b : Z) (r : tree)
| FR (l : tree) (a k v b : Z).
Notation ctx := (list frm).
Definition f_addr (f : frm) : Z := match f with FL a _ _ _ _ => a | FR _ a _ _ _ => a end.
Definition par (q : Z) (c : ctx) : Z := match c with [] => q | f :: _ => f_addr f end.
Fixpoint top (c : ctx) (x : Z) : Z := match c with [] => x | f :: c => top c (f_addr f) end.
Fixpoint pcells (q : Z) (c : ctx) (x : Z) : cells_t :=
  match c with
  | [] => []
  | FL a k v b r :: c => (a, CAelem (mk_aelem k v x (root r) (par q c) b)) :: cells a r ++ pcells q c a
  | FR l a k v b :: c => (a, CAelem (mk_aelem k v (root l) x (par q c) b)) :: cells a l ++ pcells q c a
  end.
Fixpoint plug (c : ctx) (t : tree) : tree :=
  match c with
  | [] => t
  | FL a k v b r :: c => plug c (N t a k v b r)
  | FR l a k v b :: c => plug c (N l a k v b t)
  end.

Lemma root_plug c t : root (plug c t) = top c (root t).
Proof. revert t; induction c as [|[] c IH]; intros t; simpl; auto; rewrite IH; reflexivity. Qed.
Lemma plug_cells q c t : Permutation (cells q (plug c t)) (pcells q c (root t) ++ cells (par q c) t).
Proof.
  revert t; induction c as [|[] c IH]; intros t; simpl; [reflexivity| |]; rewrite IH; cbn [cells root]; perm.
Qed.

(** ** Symbolic execution *)
Lemma run_st_left D a c v : triple ((a, CAelem c) :: D) (st_left a v)
  (det tt ((a, CAelem (mk_aelem (ae_key c) (ae_value c) v (ae_right c) (ae_parent c) (ae_balance c))) :: D)).
Proof. eapply t_ld_aelem; [left; reflexivity|]. apply t_st_aelem. Qed.
Lemma run_st_right D a c v : triple ((a, CAelem c) :: D) (st_right a v)
  (det tt ((a, CAelem (mk_aelem (ae_key c) (ae_value c) (ae_left c) v (ae_parent c) (ae_balance c))) :: D)).
Proof. eapply t_ld_aelem; [left; reflexivity|]. apply t_st_aelem. Qed.
Lemma run_st_parent D a c v : triple ((a, CAelem c) :: D) (st_parent a v)
  (det tt ((a, CAelem (mk_aelem (ae_key c) (ae_value c) (ae_left c) (ae_right c) v (ae_balance c))) :: D)).
Proof. eapply t_ld_aelem; [left; reflexivity|]. apply t_st_aelem. Qed.
Lemma run_st_balance D a c v : triple ((a, CAelem c) :: D) (st_balance a v)
  (det tt ((a, CAelem (mk_aelem (ae_key c) (ae_value c) (ae_left c) (ae_right c) (ae_parent c) v)) :: D)).
Proof. eapply t_ld_aelem; [left; reflexivity|]. apply t_st_aelem. Qed.
Lemma run_st_root D t c v : triple ((t, CAvl c) :: D) (st_root t v)
  (det tt ((t, CAvl (mk_avl (av_cmp c) (av_obj c) v (av_size c))) :: D)).
Proof. eapply t_ld_avl; [left; reflexivity|]. apply t_st_avl. Qed.
Lemma run_st_tsize D t c v : triple ((t, CAvl c) :: D) (st_tsize t v)
  (det tt ((t, CAvl (mk_avl (av_cmp c) (av_obj c) (av_root c) v)) :: D)).
Proof. eapply t_ld_avl; [left; reflexivity|]. apply t_st_avl. Qed.

Ltac fields := cbn [ae_key ae_value ae_left ae_right ae_parent ae_balance av_cmp av_obj av_root av_size root cells].
Ltac st1 :=
  norm;
  lazymatch goal with
  | |- triple _ (bnd (ret _) _) _ => apply t_bret
  | |- triple _ (bnd (bnd _ _) _) _ => apply t_assoc
  | |- triple _ (bnd (ld_aelem _) _) _ => eapply t_ld_aelem; [intac|]
  | |- triple _ (bnd (ld_avl _) _) _ => eapply t_ld_avl; [intac|]
  | |- triple _ (bnd (st_left ?a _) _) _ => tpick a; eapply t_seq; [apply run_st_left|]
  | |- triple _ (bnd (st_right ?a _) _) _ => tpick a; eapply t_seq; [apply run_st_right|]
  | |- triple _ (bnd (st_parent ?a _) _) _ => tpick a; eapply t_seq; [apply run_st_parent|]
  | |- triple _ (bnd (st_balance ?a _) _) _ => tpick a; eapply t_seq; [apply run_st_balance|]
  | |- triple _ (bnd (st_root ?a _) _) _ => tpick a; eapply t_seq; [apply run_st_root|]
  | |- triple _ (bnd (st_tsize ?a _) _) _ => tpick a; eapply t_seq; [apply run_st_tsize|]
  end; fields.
Ltac run := repeat st1.

(** Setting the parent of a possibly empty subtree. *)
Lemma adopt_ok D p q t : triple (cells p t ++ D) (adopt (root t) q) (det tt (cells q t ++ D)).
Proof.
  destruct t as [|l a k v b r]; unfold adopt; fields.
  - apply t_ret_det. reflexivity.
  - apply t_ok. intros O. nonnull O a. rewrite (proj2 (Z.eqb_neq a 0)) by auto.
    eapply t_det; [apply t_tail; run; apply t_ret_det; reflexivity|]. fields. perm.
Qed.
Lemma adopt_E D q : triple D (adopt 0 q) (det tt D).
Proof. apply t_ret_det. reflexivity. Qed.

(** Rotations. *)
Definition rot_right (l : tree) (a k v : Z) (r : tree) : tree :=
  match l with
  | E => E
  | N ll la lk lv lb lr =>
      if lb <=? 0 then N ll la lk lv (lb + 1) (N lr a k v (- (lb + 1)) r)
      else match lr with
           | E => E
           | N m1 ma mk mv mb m2 =>
               N (N ll la lk lv (- ((1 + mb) ÷ 2)) m1) ma mk mv 0 (N m2 a k v ((1 - mb) ÷ 2) r)
           end
  end.
Definition rot_left (l : tree) (a k v : Z) (r : tree) : tree :=
  match r with
  | E => E
  | N rl ra rk rv rb rr =>
      if rb >=? 0 then N (N l a k v (- (rb - 1)) rl) ra rk rv (rb - 1) rr
      else match rl with
           | E => E
           | N m1 ma mk mv mb m2 =>
               N (N l a k v (- ((1 + mb) ÷ 2)) m1) ma mk mv 0 (N m2 ra rk rv ((1 - mb) ÷ 2) rr)
           end
  end.

Lemma rotate_right_ok p l a k v b r : rot_right l a k v r <> E ->
  triple (cells p (N l a k v b r)) (rotate_right a) (det (root (rot_right l a k v r)) (cells p (rot_right l a k v r))).
Proof.
  intros NE. destruct l as [|ll la lk lv lb lr]; [exfalso; apply NE; reflexivity|]. cbn [rot_right] in *.
  unfold rotate_right. fields. st1. st1. destruct (lb <=? 0).
  - run. tpicka (cells la lr). eapply t_seq; [apply adopt_ok|].
    apply t_ret_det. fields. perm.
  - destruct lr as [|m1 ma mk mv mb m2]; [exfalso; apply NE; reflexivity|]. fields. run.
    tpicka (cells ma m1). eapply t_seq; [apply adopt_ok|]. run.
    tpicka (cells ma m2). eapply t_seq; [apply adopt_ok|].
    apply t_ret_det. fields. perm.
Qed.
Lemma rotate_left_ok p l a k v b r : rot_left l a k v r <> E ->
  triple (cells p (N l a k v b r)) (rotate_left a) (det (root (rot_left l a k v r)) (cells p (rot_left l a k v r))).
Proof.
  intros NE. destruct r as [|rl ra rk rv rb rr]; [exfalso; apply NE; reflexivity|]. cbn [rot_left] in *.
  unfold rotate_left. fields. st1. st1. destruct (rb >=? 0).
  - run. tpicka (cells ra rl). eapply t_seq; [apply adopt_ok|].
    apply t_ret_det. fields. perm.
  - destruct rl as [|m1 ma mk mv mb m2]; [exfalso; apply NE; reflexivity|]. fields. run.
    tpicka (cells ma m2). eapply t_seq; [apply adopt_ok|]. run.
    tpicka (cells ma m1). eapply t_seq; [apply adopt_ok|].
    apply t_ret_det. fields. perm.
Qed.

(** ** Heights and order *)
Fixpoint height (t : tree) : Z :=
  match t with E => 0 | N l _ _ _ _ r => 1 + Z.max (height l) (height r) end.
Fixpoint bal (t : tree) : Prop :=
  match t with
  | E => True
  | N l _ _ _ b r => b = height r - height l /\ -1 <= b <= 1 /\ bal l /\ bal r
  end.
Fixpoint elems (t : tree) : list assoc :=
  match t with E => [] | N l a k v _ r => elems l ++ (a, k, v) :: elems r end.
Definition rbal (t : tree) : Z := match t with E => 0 | N _ _ _ _ b _ => b end.

Lemma height_pos t : 0 <= height t.
Proof. induction t; cbn [height]; lia. Qed.
Lemma height_E t : height t = 0 -> t = E.
Proof. destruct t as [|l a k v b r]; cbn [height]; auto. pose proof (height_pos l). lia. Qed.

Lemma rot_right_ok l a k v r : bal l -> bal r -> height l = height r + 2 ->
  exists t, rot_right l a k v r = t /\ t <> E /\ bal t /\ rbal t = (if rbal l =? 0 then 1 else 0) /\
    height t = height l + (if rbal l =? 0 then 1 else 0) /\ elems t = elems l ++ (a, k, v) :: elems r.
Proof.
  intros Bl Br H. pose proof (height_pos r).
  destruct l as [|ll la lk lv lb lr]; cbn [height] in H; [lia|]. destruct Bl as (B1 & B2 & B3 & B4).
  cbn [rot_right rbal]. eexists. split; [reflexivity|]. destruct (lb <=? 0) eqn:Eb.
  - split; [discriminate|]. cbn [bal height elems rbal]. rewrite <- app_assoc.
    destruct (lb =? 0) eqn:E0; repeat (split; [first [reflexivity|assumption|lia]|]); repeat split; auto; lia.
  - destruct lr as [|m1 ma mk mv mb m2]; [cbn [height] in *; pose proof (height_pos ll); lia|].
    destruct B4 as (M1 & M2 & M3 & M4). cbn [height] in *. split; [discriminate|].
    replace (lb =? 0) with false by lia. cbn [bal height elems rbal].
    assert (mb = -1 \/ mb = 0 \/ mb = 1) as D by lia.
    split; [|split; [reflexivity|split; [|repeat (rewrite <- app_assoc; simpl); reflexivity]]].
    + destruct D as [->|[->| ->]]; (change (-((1+-1) ÷ 2)) with 0 || change (-((1+0) ÷ 2)) with 0 || change (-((1+1) ÷ 2)) with (-1));
        (change ((1 - -1) ÷ 2) with 1 || change ((1 - 0) ÷ 2) with 0 || change ((1-1) ÷ 2) with 0); repeat split; auto; lia.
    + lia.
Qed.
Lemma rot_left_ok l a k v r : bal l -> bal r -> height r = height l + 2 ->
  exists t, rot_left l a k v r = t /\ t <> E /\ bal t /\ rbal t = (if rbal r =? 0 then -1 else 0) /\
    height t = height r + (if rbal r =? 0 then 1 else 0) /\ elems t = elems l ++ (a, k, v) :: elems r.
Proof.
  intros Bl Br H. pose proof (height_pos l).
  destruct r as [|rl ra rk rv rb rr]; cbn [height] in H; [lia|]. destruct Br as (B1 & B2 & B3 & B4).
  cbn [rot_left rbal]. eexists. split; [reflexivity|]. destruct (rb >=? 0) eqn:Eb.
  - split; [discriminate|]. cbn [bal height elems rbal]. rewrite <- app_assoc.
    destruct (rb =? 0) eqn:E0; repeat (split; [first [reflexivity|assumption|lia]|]); repeat split; auto; lia.
  - destruct rl as [|m1 ma mk mv mb m2]; [cbn [height] in *; pose proof (height_pos rr); lia|].
    destruct B3 as (M1 & M2 & M3 & M4). cbn [height] in *. split; [discriminate|].
    replace (rb =? 0) with false by lia. cbn [bal height elems rbal].
    assert (mb = -1 \/ mb = 0 \/ mb = 1) as D by lia.
    split; [|split; [reflexivity|split; [|repeat (rewrite <- app_assoc; simpl); reflexivity]]].
    + destruct D as [->|[->| ->]]; (change (-((1+-1) ÷ 2)) with 0 || change (-((1+0) ÷ 2)) with 0 || change (-((1+1) ÷ 2)) with (-1));
        (change ((1 - -1) ÷ 2) with 1 || change ((1 - 0) ÷ 2) with 0 || change ((1-1) ÷ 2) with 0); repeat split; auto; lia.
    + lia.
Qed.

(** ** Contexts *)
Definition hd (T cmp obj size : Z) (c : ctx) (x : Z) : cells_t :=
  (T, CAvl (mk_avl cmp obj (top c x) size)) :: pcells 0 c x.
Definition full (T cmp obj size : Z) (c : ctx) (t : tree) : cells_t :=
  hd T cmp obj size c (root t) ++ cells (par 0 c) t.
Definition ploc_of (T : Z) (c : ctx) : ploc :=
  match c with [] => PRoot T | FL a _ _ _ _ :: _ => PLeft a | FR _ a _ _ _ :: _ => PRight a end.

Lemma full_plug T cmp obj size c t : Permutation (full T cmp obj size c t) (full T cmp obj size [] (plug c t)).
Proof.
  unfold full, hd. cbn [top pcells par app]. rewrite root_plug, plug_cells. reflexivity.
Qed.
Lemma hole_ok T cmp obj size c x y D :
  triple (hd T cmp obj size c x ++ D) (st_ploc (ploc_of T c) y) (det tt (hd T cmp obj size c y ++ D)).
Proof.
  unfold hd. destruct c as [|[] c]; cbn [ploc_of st_ploc top pcells par f_addr]; apply t_tail; run; apply t_ret_det; perm.
Qed.
Lemma hole_ld T cmp obj size c x D : reads (hd T cmp obj size c x ++ D) (ld_ploc (ploc_of T c)) x.
Proof.
  unfold hd. destruct c as [|[] c]; cbn [ploc_of ld_ploc top pcells par f_addr]; norm.
  - eapply r_ld_avl; [intac|]. apply r_ret.
  - eapply r_ld_aelem; [intac|]. apply r_ret.
  - eapply r_ld_aelem; [intac|]. apply r_ret.
Qed.

Lemma top_in q c x : c <> [] -> In (top c x) (keys (pcells q c x)).
Proof.
  revert x. induction c as [|f c IH]; intros x H; [congruence|]. destruct c as [|g c].
  - destruct f; left; reflexivity.
  - cbn [top]. specialize (IH (f_addr f) ltac:(discriminate)).
    destruct f; cbn [f_addr] in *; cbn [pcells]; unfold keys in *; rewrite map_cons, map_app; right; apply in_or_app; right; exact IH.
Qed.
Lemma root_in p t : t <> E -> In (root t) (keys (cells p t)).
Proof. destruct t; [congruence|]. intros _. left; reflexivity. Qed.
Lemma keys_root_in D p t : t <> E -> In (root t) (keys (cells p t ++ D)).
Proof. intros H. rewrite keys_app. apply in_or_app. left. apply root_in; auto. Qed.
Lemma keys_top_in D q c x : c <> [] -> In (top c x) (keys (pcells q c x ++ D)).
Proof. intros H. rewrite keys_app. apply in_or_app. left. apply top_in; auto. Qed.

(** An address is the root of the tree if and only if its context is empty. *)
Lemma is_root D q c x c0 F y : ok D -> Permutation D ((x, c0) :: pcells q c y ++ F) -> c <> [] -> (x =? top c y) = false.
Proof. intros O P H. apply Z.eqb_neq. eapply ok_not_in; [exact O|exact P|]. apply keys_top_in; auto. Qed.
(** A child in a context. *)
Lemma not_child D x c0 p t F : ok D -> Permutation D ((x, c0) :: cells p t ++ F) -> (root t =? x) = false.
Proof.
  intros O P. apply Z.eqb_neq. destruct t as [|l a k v b r].
  - intros <-. eapply (ok_nonnull _ 0 _ O); [|reflexivity]. eapply Permutation_in; [symmetry; exact P|]. left; reflexivity.
  - intros <-. eapply (ok_not_in _ _ _ _ a O P); [|reflexivity]. apply (keys_root_in F p (N l a k v b r)). discriminate.
Qed.

Lemma substitute_ok T cmp obj size c x e y D : ae_parent e = par 0 c ->
  triple (hd T cmp obj size c x ++ (x, CAelem e) :: D) (substitute T y x)
    (det tt (hd T cmp obj size c y ++ (x, CAelem e) :: D)).
Proof.
  intros P. apply t_ok. intros O. unfold substitute, hd in *. norm. eapply t_ld_avl; [intac|]. fields.
  destruct c as [|f c].
  - cbn [top]. rewrite Z.eqb_refl. apply t_tail; run; apply t_ret_det; cbn [pcells top]; perm.
  - rewrite (is_root _ 0 (f :: c) x (CAelem e) ((T, CAvl (mk_avl cmp obj (top (f :: c) x) size)) :: D) x O)
      by (perm || discriminate).
    norm. eapply t_ld_aelem; [intac|]. rewrite P. cbn [par].
    destruct f as [a k v b r|l a k v b]; cbn [pcells f_addr top] in *.
    + run. rewrite Z.eqb_refl. apply t_tail. run. apply t_ret_det. perm.
    + run. rewrite (not_child _ x (CAelem e) a l ((T, CAvl (mk_avl cmp obj (top c a) size)) ::
        (a, CAelem (mk_aelem k v (root l) x (par 0 c) b)) :: pcells 0 c a ++ D) O) by perm.
      apply t_tail. run. apply t_ret_det. perm.
Qed.

(** ** Insertion *)
Section Put.
  Variables (f : Z -> Z -> Z) (e k v : Z).
  Fixpoint put_t (t : tree) : tree * bool :=
    match t with
    | E => (N E e k v 0 E, true)
    | N l a k' v' b r =>
        if f k k' <? 0 then
          let (l', g) := put_t l in
          if g then
            if b - 1 =? -2 then (rot_right l' a k' v' r, false) else (N l' a k' v' (b - 1) r, b - 1 =? -1)
          else (N l' a k' v' b r, false)
        else if f k k' >? 0 then
          let (r', g) := put_t r in
          if g then
            if b + 1 =? 2 then (rot_left l a k' v' r', false) else (N l a k' v' (b + 1) r', b + 1 =? 1)
          else (N l a k' v' b r', false)
        else (N l e k v b r, false)
    end.
  (** The element that is replaced. *)
  Fixpoint put_old (c : ctx) (t : tree) : cells_t :=
    match t with
    | E => []
    | N l a k' v' b r =>
        if f k k' <? 0 then put_old (FL a k' v' b r :: c) l
        else if f k k' >? 0 then put_old (FR l a k' v' b :: c) r
        else [(a, CAelem (mk_aelem k' v' (root l) (root r) (par 0 c) b))]
    end.
  Fixpoint put_count (t : tree) : Z :=
    match t with
    | E => 0
    | N l _ k' _ _ r => if f k k' <? 0 then put_count l + 1 else if f k k' >? 0 then put_count r + 1 else 1
    end.
  Definition removed (o : cells_t) : Z := match o with [] => 0 | (a, _) :: _ => a end.
  Definition grown (o : cells_t) : Z := match o with [] => 1 | _ => 0 end.

  Lemma put_t_bal t : bal t ->
    fst (put_t t) <> E /\ bal (fst (put_t t)) /\ height (fst (put_t t)) = height t + (if snd (put_t t) then 1 else 0) /\
    (snd (put_t t) = true -> t = E \/ rbal (fst (put_t t)) <> 0).
  Proof.
    induction t as [|l IHl a k' v' b r IHr]; intros B; cbn [put_t].
    - cbn [fst snd bal height rbal]. repeat split; try discriminate; lia || auto.
    - destruct B as (B1 & B2 & B3 & B4). specialize (IHl B3). specialize (IHr B4). pose proof (height_pos l). pose proof (height_pos r).
      destruct (f k k' <? 0).
      + destruct (put_t l) as [l' g]. cbn [fst snd] in IHl. destruct IHl as (I1 & I2 & I3 & I4). destruct g; cbv beta iota in I3.
        * destruct (b - 1 =? -2) eqn:Eb; cbn [fst snd].
          -- destruct (rot_right_ok l' a k' v' r) as (t' & Et & R1 & R2 & R3 & R4 & R5); auto; [lia|]. rewrite Et.
             destruct I4 as [->|I4]; auto; [cbn [height] in *; lia|].
             replace (rbal l' =? 0) with false in * by lia. cbv beta iota in R3, R4, I3 |- *; repeat split; auto; [cbn [height]; lia|discriminate].
          -- cbn [bal height rbal]. repeat split; auto; try discriminate; try lia; try (intros E1; right; lia). destruct (b - 1 =? -1) eqn:E1; lia.
        * cbn [fst snd bal height]. repeat split; auto; try discriminate; try lia.
      + destruct (f k k' >? 0).
        * destruct (put_t r) as [r' g]. cbn [fst snd] in IHr. destruct IHr as (I1 & I2 & I3 & I4). destruct g; cbv beta iota in I3.
          -- destruct (b + 1 =? 2) eqn:Eb; cbn [fst snd].
             ++ destruct (rot_left_ok l a k' v' r') as (t' & Et & R1 & R2 & R3 & R4 & R5); auto; [lia|]. rewrite Et.
                destruct I4 as [->|I4]; auto; [cbn [height] in *; lia|].
                replace (rbal r' =? 0) with false in * by lia. cbv beta iota in R3, R4, I3 |- *; repeat split; auto; [cbn [height]; lia|discriminate].
             ++ cbn [bal height rbal]. repeat split; auto; try discriminate; try lia; try (intros E1; right; lia). destruct (b + 1 =? 1) eqn:E1; lia.
          -- cbn [fst snd bal height]. repeat split; auto; try discriminate; try lia.
        * cbn [fst snd bal height]. repeat split; auto; try discriminate; try lia.
  Qed.
End Put.

Lemma cells_len p t : (Z.to_nat (height t) <= length (cells p t))%nat.
Proof.
  revert p. induction t as [|l IHl a k v b r IHr]; intros p; cbn [height cells]; [simpl; lia|].
  cbn [length]. rewrite app_length. specialize (IHl a). specialize (IHr a).
  pose proof (height_pos l). pose proof (height_pos r). lia.
Qed.

Lemma full_FL T cmp obj size c l a k v b r :
  Permutation (full T cmp obj size c (N l a k v b r)) (full T cmp obj size (FL a k v b r :: c) l).
Proof. unfold full, hd. cbn [top pcells par f_addr cells root]. perm. Qed.
Lemma full_FR T cmp obj size c l a k v b r :
  Permutation (full T cmp obj size c (N l a k v b r)) (full T cmp obj size (FR l a k v b :: c) r).
Proof. unfold full, hd. cbn [top pcells par f_addr cells root]. perm. Qed.

Ltac shape := unfold full, hd; cbn [top pcells par f_addr cells root].

Lemma put_ok call cmp obj T e k v n t c size :
  bal t -> t <> E -> (Z.to_nat (height t) <= n)%nat -> 0 <= size <= 2 ^ 60 ->
  triple ((e, CAelem (mk_aelem k v 0 0 0 0)) :: full T cmp obj size c t)
    (put call n T (ploc_of T c) e)
    (let f := fun k1 k2 => call cmp k1 k2 obj in
     let o := put_old f k c t in
     det (mk_put (snd (put_t f e k v t)) (removed o) (put_count f k t))
       (full T cmp obj (size + grown o) c (fst (put_t f e k v t)) ++ o)).
Proof.
  intros B NE Hn Hs. cbv zeta. revert t c B NE Hn. induction n as [|n IH]; intros t c B NE Hn.
  { destruct t as [|l a k' v' b r]; [congruence|]. cbn [height] in Hn. pose proof (height_pos l). lia. }
  destruct t as [|l a k' v' b r]; [congruence|]. clear NE.
  pose proof (put_t_bal (fun k1 k2 => call cmp k1 k2 obj) e k v (N l a k' v' b r) B) as PB.
  apply t_ok. intros O.
  cbn [put]. unfold full in *. cbn [root] in *.
  eapply t_seq. { apply t_reads. eapply r_perm; [|apply (hole_ld T cmp obj size c a ((e, CAelem (mk_aelem k v 0 0 0 0)) :: cells (par 0 c) (N l a k' v' b r)))]. perm. }
  unfold hd in *. fields. run. cbn [cells root] in O. norm. nonnull O a. nonnull O e. differ O a e.
  assert (nl : forall p t F D, t <> E -> ok D -> Permutation D (cells p t ++ F) -> (root t =? 0) = false).
  { intros p t F D Ht OD PD. apply Z.eqb_neq. destruct t as [|tl x kx vx bx tr]; [congruence|].
    eapply (ok_nonnull _ x _ OD). eapply Permutation_in; [symmetry; exact PD|]. left; reflexivity. }
  destruct B as (B1 & B2 & B3 & B4). pose proof (height_pos l). pose proof (height_pos r). cbn [height] in Hn.
  cbn [put_t put_old put_count] in *.
  destruct (call cmp k k' obj <? 0) eqn:C1.
  - (* left *)
    unfold put_left. apply t_assoc.
    eapply t_seq. { apply t_reads. eapply r_perm; [|apply (hole_ld T cmp obj size c a ((e, CAelem (mk_aelem k v 0 0 0 0)) :: cells (par 0 c) (N l a k' v' b r)))]. unfold hd. fields. perm. }
    run. destruct l as [|ll la lk lv lb lr].
    + (* new leaf *)
      cbn [root Z.eqb put_t put_old put_count] in *. run. cbn [p_higher p_removed p_count removed grown].
      replace (b - 1 =? -2) with false by (cbn [height] in *; lia).
      replace (root r =? 0) with (b - 1 =? -1).
      2: { destruct r as [|rl ra rk rv rb rr]; cbn [height root] in *.
           - replace b with 0 by lia. reflexivity.
           - pose proof (height_pos rl). change ra with (root (N rl ra rk rv rb rr)). rewrite (nl a (N rl ra rk rv rb rr) ((e, CAelem (mk_aelem k v 0 0 0 0)) :: (T, CAvl (mk_avl cmp obj (top c a) size)) ::
               (a, CAelem (mk_aelem k' v' 0 ra (par 0 c) b)) :: pcells 0 c a) _ ltac:(discriminate) O) by (fields; perm). lia. }
      rewrite u64_small by lia. change (0 + 1) with 1. apply t_ret_det. cbn [fst]. shape. perm.
    + (* recursion *)
      cbn [root cells] in *. nonnull O la. replace (la =? 0) with false by lia.
      apply t_assoc.
      eapply t_seq.
      { eapply t_perm; [|apply (IH (N ll la lk lv lb lr) (FL a k' v' b r :: c) B3); [discriminate|lia]].
        shape. perm. }
      pose proof (put_t_bal (fun k1 k2 => call cmp k1 k2 obj) e k v (N ll la lk lv lb lr) B3) as PL.
      destruct (put_t (fun k1 k2 => call cmp k1 k2 obj) e k v (N ll la lk lv lb lr)) as [l' g]. cbn [fst snd] in PL |- *.
      destruct PL as (L1 & L2 & L3 & L4).
      set (o := put_old (fun k1 k2 => call cmp k1 k2 obj) k (FL a k' v' b r :: c) (N ll la lk lv lb lr)).
      set (cnt := put_count (fun k1 k2 => call cmp k1 k2 obj) k (N ll la lk lv lb lr)).
      cbn [p_higher p_removed p_count]. destruct g; cbn [negb].
      * shape. run. destruct (b - 1 =? -2) eqn:Eb; cbn [fst snd] in *.
        -- destruct (rot_right_ok l' a k' v' r) as (t' & Et & R1 & R2 & R3 & R4 & R5); auto; [lia|]. rewrite Et in *.
           apply t_assoc.
           eapply t_seq.
           { eapply t_perm; [|apply t_frame_det; apply (rotate_right_ok (par 0 c) l' a k' v' (b - 1) r); congruence].
             instantiate (1 := hd T cmp obj (size + grown o) c a ++ o). shape. perm. }
           rewrite Et. apply t_assoc.
           eapply t_seq.
           { eapply t_perm; [|apply (hole_ok T cmp obj (size + grown o) c a (root t') (cells (par 0 c) t' ++ o))]. perm. }
           run. cbn [p_higher p_removed p_count]. apply t_ret_det. unfold full, hd. perm.
        -- run. cbn [p_higher p_removed p_count fst snd]. apply t_ret_det. shape. perm.
      * run. cbn [p_higher p_removed p_count fst snd]. apply t_ret_det. shape. perm.
  - destruct (call cmp k k' obj >? 0) eqn:C2.
    + (* right *)
      unfold put_right. apply t_assoc.
      eapply t_seq. { apply t_reads. eapply r_perm; [|apply (hole_ld T cmp obj size c a ((e, CAelem (mk_aelem k v 0 0 0 0)) :: cells (par 0 c) (N l a k' v' b r)))]. unfold hd. fields. perm. }
      run. destruct r as [|rl ra rk rv rb rr].
      * cbn [root Z.eqb put_t put_old put_count] in *. run. cbn [p_higher p_removed p_count removed grown].
        replace (b + 1 =? 2) with false by (cbn [height] in *; lia).
        replace (root l =? 0) with (b + 1 =? 1).
        2: { destruct l as [|ll la lk lv lb lr]; cbn [height root] in *.
             - replace b with 0 by lia. reflexivity.
             - pose proof (height_pos ll). change la with (root (N ll la lk lv lb lr)). rewrite (nl a (N ll la lk lv lb lr) ((e, CAelem (mk_aelem k v 0 0 0 0)) :: (T, CAvl (mk_avl cmp obj (top c a) size)) ::
                 (a, CAelem (mk_aelem k' v' la 0 (par 0 c) b)) :: pcells 0 c a) _ ltac:(discriminate) O) by (fields; perm). lia. }
        rewrite u64_small by lia. change (0 + 1) with 1. apply t_ret_det. cbn [fst]. shape. perm.
      * cbn [root cells] in *. nonnull O ra. replace (ra =? 0) with false by lia.
        apply t_assoc.
        eapply t_seq.
        { eapply t_perm; [|apply (IH (N rl ra rk rv rb rr) (FR l a k' v' b :: c) B4); [discriminate|lia]].
          shape. perm. }
        pose proof (put_t_bal (fun k1 k2 => call cmp k1 k2 obj) e k v (N rl ra rk rv rb rr) B4) as PL.
        destruct (put_t (fun k1 k2 => call cmp k1 k2 obj) e k v (N rl ra rk rv rb rr)) as [r' g]. cbn [fst snd] in PL |- *.
        destruct PL as (L1 & L2 & L3 & L4).
        set (o := put_old (fun k1 k2 => call cmp k1 k2 obj) k (FR l a k' v' b :: c) (N rl ra rk rv rb rr)).
        set (cnt := put_count (fun k1 k2 => call cmp k1 k2 obj) k (N rl ra rk rv rb rr)).
        cbn [p_higher p_removed p_count]. destruct g; cbn [negb].
        -- shape. run. destruct (b + 1 =? 2) eqn:Eb; cbn [fst snd] in *.
           ++ destruct (rot_left_ok l a k' v' r') as (t' & Et & R1 & R2 & R3 & R4 & R5); auto; [lia|]. rewrite Et in *.
              apply t_assoc.
              eapply t_seq.
              { eapply t_perm; [|apply t_frame_det; apply (rotate_left_ok (par 0 c) l a k' v' (b + 1) r'); congruence].
                instantiate (1 := hd T cmp obj (size + grown o) c a ++ o). shape. perm. }
              rewrite Et. apply t_assoc.
              eapply t_seq.
              { eapply t_perm; [|apply (hole_ok T cmp obj (size + grown o) c a (root t') (cells (par 0 c) t' ++ o))]. perm. }
              run. cbn [p_higher p_removed p_count]. apply t_ret_det. unfold full, hd. perm.
           ++ run. cbn [p_higher p_removed p_count fst snd]. apply t_ret_det. shape. perm.
        -- run. cbn [p_higher p_removed p_count fst snd]. apply t_ret_det. shape. perm.
    + (* replacement *)
      replace (a =? e) with false by lia. cbn [fst snd removed grown]. run.
      eapply t_seq.
      { eapply t_perm; [|apply (substitute_ok T cmp obj size c a (mk_aelem k' v' (root l) (root r) (par 0 c) b) e
          ((e, CAelem (mk_aelem k v (root l) (root r) (par 0 c) b)) :: cells a l ++ cells a r) eq_refl)].
        unfold hd. perm. }
      unfold hd. run.
      tpicka (cells a l). eapply t_seq; [apply adopt_ok|]. run.
      tpicka (cells a r). eapply t_seq; [apply adopt_ok|]. run.
      replace (size + 0) with size by lia. apply t_ret_det. shape. perm.
Qed.
