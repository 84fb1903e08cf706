(** Binary tries over positive numbers: association lists with many entries as
    trees, so that the kernel can look up entries quickly. *)
From Verif Require Import Base.
From Coq Require Import ZifyBool ZifyNat.

Inductive ptree (A : Type) : Type :=
| Leaf
| Node (l : ptree A) (o : option A) (r : ptree A).
Arguments Leaf {A}.
Arguments Node {A} l o r.

Fixpoint pget {A} (p : positive) (t : ptree A) : option A :=
  match t with
  | Leaf => None
  | Node l o r => match p with xH => o | xO p => pget p l | xI p => pget p r end
  end.
Fixpoint pset {A} (p : positive) (a : A) (t : ptree A) : ptree A :=
  let '(l, o, r) := match t with Leaf => (Leaf, None, Leaf) | Node l o r => (l, o, r) end in
  match p with
  | xH => Node l (Some a) r
  | xO p => Node (pset p a l) o r
  | xI p => Node l o (pset p a r)
  end.

Lemma pget_same {A} p (a : A) t : pget p (pset p a t) = Some a.
Proof. revert t. induction p; intros [|l o r]; cbn; auto. Qed.
Lemma pget_other {A} p q (a : A) t : p <> q -> pget p (pset q a t) = pget p t.
Proof.
  revert p t. induction q as [q IH|q IH|]; intros [p|p|] [|l o r] N; cbn; try reflexivity; try (destruct p; reflexivity).
  all: try (rewrite IH by (intros ->; apply N; reflexivity); try reflexivity; destruct p; reflexivity).
  all: destruct N; reflexivity.
Qed.

(** The tree of an association list with positive keys; the first entry wins. *)
Definition zget {A} (k : Z) (t : ptree A) : option A := match k with Zpos p => pget p t | _ => None end.
Definition zset {A} (k : Z) (a : A) (t : ptree A) : ptree A := match k with Zpos p => pset p a t | _ => t end.
Fixpoint tree_of {A} (rows : list (Z * A)) : ptree A :=
  match rows with
  | [] => Leaf
  | (k, a) :: rows => zset k a (tree_of rows)
  end.

Lemma zget_same {A} k (a : A) t : 0 < k -> zget k (zset k a t) = Some a.
Proof. destruct k; try lia. intros _. apply pget_same. Qed.
Lemma zget_other {A} j k (a : A) t : j <> k -> zget j (zset k a t) = zget j t.
Proof. destruct j, k; try reflexivity. intros N. apply pget_other. congruence. Qed.
Lemma zget_leaf {A} j : zget j (@Leaf A) = None.
Proof. destruct j; try reflexivity. destruct p; reflexivity. Qed.

(** The set of the codepoints of some ranges. *)
Fixpoint set_range (n : nat) (k : Z) (t : ptree unit) : ptree unit :=
  match n with
  | O => t
  | S n => zset k tt (set_range n (k + 1) t)
  end.
Fixpoint ranges_tree (rows : list (Z * Z)) : ptree unit :=
  match rows with
  | [] => Leaf
  | (a, b) :: rows => set_range (Z.to_nat (b - a + 1)) a (ranges_tree rows)
  end.

Lemma set_range_get n : forall k t j, zget j (set_range n k t) <> None -> k <= j < k + Z.of_nat n \/ zget j t <> None.
Proof.
  induction n as [|n IH]; intros k t j H; cbn [set_range] in H; [auto|].
  destruct (Z.eq_dec j k) as [->|N]; [left; lia|]. rewrite zget_other in H by exact N. destruct (IH _ _ _ H) as [J|J]; [left; lia|right; exact J].
Qed.
Lemma ranges_get rows j : zget j (ranges_tree rows) <> None -> exists a b, In (a, b) rows /\ a <= j <= b.
Proof.
  induction rows as [|[a b] rows IH]; cbn [ranges_tree]; intros H; [rewrite zget_leaf in H; congruence|].
  apply set_range_get in H as [H|H].
  - exists a, b. split; [left; reflexivity|lia].
  - destruct (IH H) as (a' & b' & I & J). exists a', b'. split; [right; exact I|exact J].
Qed.
Lemma set_range_in n : forall k t j, 0 < k -> k <= j < k + Z.of_nat n -> zget j (set_range n k t) <> None.
Proof.
  induction n as [|n IH]; intros k t j P H; [lia|]. cbn [set_range]. destruct (Z.eq_dec j k) as [->|N].
  - rewrite zget_same by exact P. discriminate.
  - rewrite zget_other by exact N. apply IH; lia.
Qed.
Lemma set_range_keep n : forall k t j, zget j t <> None -> zget j (set_range n k t) <> None.
Proof.
  induction n as [|n IH]; intros k t j H; [exact H|]. cbn [set_range]. destruct (Z.eq_dec j k) as [->|N].
  - destruct k; cbn in *; try congruence. rewrite pget_same. discriminate.
  - rewrite zget_other by exact N. apply IH; exact H.
Qed.
Lemma ranges_in rows a b j : In (a, b) rows -> 0 < a -> a <= j <= b -> zget j (ranges_tree rows) <> None.
Proof.
  induction rows as [|[a' b'] rows IH]; [intros []|]. intros [E|I] P J; cbn [ranges_tree].
  - injection E as -> ->. apply set_range_in; lia.
  - apply set_range_keep. auto.
Qed.
