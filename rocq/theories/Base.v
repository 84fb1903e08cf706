(** Common vocabulary of the models: outcomes, machine integers, byte blocks. *)
From Coq Require Export List ZArith Lia Bool.
From Coq Require Import ZifyBool ZifyNat.
Export ListNotations.
Global Open Scope Z_scope.

(** Outcome of a modelled C function. [UB]: undefined behaviour (out-of-bounds
    access, NULL or freed memory, ...). [Abort]: failed assert / abort().
    [NoFuel]: the loop bound of the model was too small (never reached in the
    theorems). *)
Inductive res (A : Type) : Type :=
| Ok (a : A)
| UB
| Abort
| NoFuel.
Arguments Ok {A} a.
Arguments UB {A}.
Arguments Abort {A}.
Arguments NoFuel {A}.

Definition bind {A B} (m : res A) (f : A -> res B) : res B :=
  match m with
  | Ok a => f a
  | UB => UB
  | Abort => Abort
  | NoFuel => NoFuel
  end.

Declare Scope res_scope.
Delimit Scope res_scope with res.
Notation "x <- c1 ;; c2" := (bind c1 (fun x => c2))
  (at level 61, c1 at next level, right associativity) : res_scope.
Notation "' pat <- c1 ;; c2" := (bind c1 (fun x => match x with pat => c2 end))
  (at level 61, pat pattern, c1 at next level, right associativity) : res_scope.
Global Open Scope res_scope.

(** C's [assert]. *)
Definition assert (b : bool) : res unit := if b then Ok tt else Abort.

(** Machine integers (LP64, two's complement). *)
Definition u8 (z : Z) : Z := z mod 2 ^ 8.
Definition u32 (z : Z) : Z := z mod 2 ^ 32.
Definition u64 (z : Z) : Z := z mod 2 ^ 64.
Definition sgn (bits : Z) (z : Z) : Z :=
  let m := z mod 2 ^ bits in if m <? 2 ^ (bits - 1) then m else m - 2 ^ bits.
Definition s8 (z : Z) : Z := sgn 8 z.
Definition s32 (z : Z) : Z := sgn 32 z.
Definition s64 (z : Z) : Z := sgn 64 z.

Definition SIZE_MAX : Z := 2 ^ 64 - 1.
Definition INT_MAX : Z := 2 ^ 31 - 1.

(** C's truth value of an integer. *)
Definition truth (z : Z) : bool := negb (z =? 0).

(** Byte (or word) blocks. *)
Definition zlen {A} (b : list A) : Z := Z.of_nat (length b).
Definition inb {A} (b : list A) (i : Z) : bool := (0 <=? i) && (i <? zlen b).
Definition rd (b : list Z) (i : Z) : res Z :=
  if inb b i then Ok (nth (Z.to_nat i) b 0) else UB.
Definition upd {A} (b : list A) (i : nat) (v : A) : list A :=
  firstn i b ++ v :: skipn (S i) b.
Definition wr {A} (b : list A) (i : Z) (v : A) : res (list A) :=
  if inb b i then Ok (upd b (Z.to_nat i) v) else UB.

(** A freshly allocated block of [n] bytes: its content is arbitrary. *)
Definition fresh_block (junk : nat -> Z) (n : Z) : list Z :=
  map junk (seq 0 (Z.to_nat n)).

Definition byte (z : Z) : Prop := 0 <= z < 256.
Definition bytes (l : list Z) : Prop := Forall byte l.

(** * Lemmas *)

Lemma bind_Ok {A B} (m : res A) (f : A -> res B) b :
  bind m f = Ok b <-> exists a, m = Ok a /\ f a = Ok b.
Proof.
  destruct m; simpl; split; intro H; try discriminate;
    try (destruct H as (x & Hx & Hy); congruence).
  exists a; auto.
Qed.

Lemma zlen_nonneg {A} (l : list A) : 0 <= zlen l.
Proof. unfold zlen; lia. Qed.
Lemma zlen_nil {A} : zlen (@nil A) = 0.
Proof. reflexivity. Qed.
Lemma zlen_cons {A} (x : A) l : zlen (x :: l) = 1 + zlen l.
Proof. unfold zlen; simpl length; lia. Qed.
Lemma zlen_app {A} (l1 l2 : list A) : zlen (l1 ++ l2) = zlen l1 + zlen l2.
Proof. unfold zlen; rewrite app_length; lia. Qed.
Lemma zlen_to_nat {A} (l : list A) : Z.to_nat (zlen l) = length l.
Proof. unfold zlen; lia. Qed.
Lemma zlen_0_nil {A} (l : list A) : zlen l = 0 -> l = [].
Proof. destruct l; auto; rewrite zlen_cons; pose proof (zlen_nonneg l); lia. Qed.

Lemma fresh_block_zlen junk n : 0 <= n -> zlen (fresh_block junk n) = n.
Proof. intros; unfold fresh_block, zlen; rewrite map_length, seq_length; lia. Qed.

Lemma rd_app pre x post i : i = zlen pre -> rd (pre ++ x :: post) i = Ok x.
Proof.
  intros ->. unfold rd, inb. rewrite zlen_app, zlen_cons, zlen_to_nat.
  pose proof (zlen_nonneg pre); pose proof (zlen_nonneg post).
  replace ((0 <=? zlen pre) && (zlen pre <? zlen pre + (1 + zlen post))) with true by lia.
  rewrite app_nth2, Nat.sub_diag by lia. reflexivity.
Qed.

Lemma upd_app {A} (pre : list A) x post i v :
  i = length pre -> upd (pre ++ x :: post) i v = pre ++ v :: post.
Proof.
  intros ->. unfold upd. rewrite firstn_app, Nat.sub_diag, firstn_all, firstn_O, app_nil_r.
  f_equal. f_equal. rewrite skipn_app. rewrite skipn_all2 by lia.
  replace (S (length pre) - length pre)%nat with 1%nat by lia. reflexivity.
Qed.

Lemma wr_app {A} (pre : list A) x post i v :
  i = zlen pre -> wr (pre ++ x :: post) i v = Ok (pre ++ v :: post).
Proof.
  intros ->. unfold wr, inb. rewrite zlen_app, zlen_cons, zlen_to_nat.
  pose proof (zlen_nonneg pre); pose proof (zlen_nonneg post).
  replace ((0 <=? zlen pre) && (zlen pre <? zlen pre + (1 + zlen post))) with true by lia.
  rewrite upd_app by reflexivity. reflexivity.
Qed.

Lemma upd_length {A} (b : list A) i v : (i < length b)%nat -> length (upd b i v) = length b.
Proof.
  intros H. unfold upd. rewrite app_length; cbn [length]. rewrite firstn_length, skipn_length. lia.
Qed.

Lemma nth_upd_eq {A} (b : list A) i v d : (i < length b)%nat -> nth i (upd b i v) d = v.
Proof.
  intros H. unfold upd. rewrite app_nth2; rewrite firstn_length; [|lia].
  replace (i - Nat.min i (length b))%nat with 0%nat by lia. reflexivity.
Qed.

Lemma nth_upd_neq {A} (b : list A) i j v d :
  (i < length b)%nat -> i <> j -> nth j (upd b i v) d = nth j b d.
Proof.
  intros H Hn. unfold upd.
  destruct (Nat.lt_ge_cases j i) as [Hl|Hl].
  - rewrite app_nth1 by (rewrite firstn_length; lia).
    rewrite <- (firstn_skipn i b) at 2. rewrite app_nth1 by (rewrite firstn_length; lia). reflexivity.
  - rewrite app_nth2; rewrite firstn_length; [|lia].
    replace (j - Nat.min i (length b))%nat with (S (j - S i)) by lia.
    cbn [nth].
    rewrite <- (firstn_skipn (S i) b) at 2.
    rewrite (app_nth2 (firstn (S i) b)); rewrite firstn_length; [|lia].
    f_equal. lia.
Qed.

Lemma rd_Ok b i : 0 <= i < zlen b -> rd b i = Ok (nth (Z.to_nat i) b 0).
Proof. intros H. unfold rd, inb. replace ((0 <=? i) && (i <? zlen b)) with true by lia. reflexivity. Qed.
Lemma wr_Ok {A} (b : list A) i v : 0 <= i < zlen b -> wr b i v = Ok (upd b (Z.to_nat i) v).
Proof. intros H. unfold wr, inb. replace ((0 <=? i) && (i <? zlen b)) with true by lia. reflexivity. Qed.

Lemma split_at {A} (l : list A) i :
  0 <= i < zlen l -> exists pre x post, l = pre ++ x :: post /\ zlen pre = i.
Proof.
  intros H. unfold zlen in H.
  exists (firstn (Z.to_nat i) l).
  destruct (skipn (Z.to_nat i) l) as [|x post] eqn:E.
  - apply (f_equal (@length A)) in E. rewrite skipn_length in E. simpl in E. lia.
  - exists x, post. split.
    + rewrite <- E. symmetry; apply firstn_skipn.
    + unfold zlen. rewrite firstn_length. lia.
Qed.

Lemma app_inv_len {A} (a b c d : list A) : length a = length c -> a ++ b = c ++ d -> a = c /\ b = d.
Proof.
  revert c; induction a as [|x a IH]; intros [|y c] HL HE; simpl in *; try discriminate; auto.
  injection HE as -> HE. injection HL as HL. destruct (IH c HL HE) as [-> ->]. auto.
Qed.

Lemma u64_small z : 0 <= z < 2 ^ 64 -> u64 z = z.
Proof. intros; unfold u64; apply Z.mod_small; lia. Qed.
Lemma u32_small z : 0 <= z < 2 ^ 32 -> u32 z = z.
Proof. intros; unfold u32; apply Z.mod_small; lia. Qed.
Lemma u8_small z : 0 <= z < 2 ^ 8 -> u8 z = z.
Proof. intros; unfold u8; apply Z.mod_small; lia. Qed.

Lemma land_shiftl_small x y n : 0 <= n -> 0 <= y < 2 ^ n -> Z.land (Z.shiftl x n) y = 0.
Proof.
  intros Hn Hy. apply Z.bits_inj'. intros k Hk. rewrite Z.land_spec, Z.bits_0.
  destruct (Z.lt_ge_cases k n).
  - rewrite Z.shiftl_spec_low by lia. reflexivity.
  - rewrite <- (Z.mod_small y (2 ^ n)) by lia. rewrite Z.mod_pow2_bits_high by lia.
    apply andb_false_r.
Qed.

Lemma lor_shiftl_add x y n : 0 <= n -> 0 <= y < 2 ^ n -> Z.lor (Z.shiftl x n) y = x * 2 ^ n + y.
Proof.
  intros Hn Hy. pose proof (land_shiftl_small x y n Hn Hy) as H.
  rewrite <- Z.lxor_lor by exact H. rewrite <- Z.add_nocarry_lxor by exact H.
  rewrite Z.shiftl_mul_pow2 by lia. reflexivity.
Qed.

Lemma firstn_zlen {A} (a b : list A) : firstn (Z.to_nat (zlen a)) (a ++ b) = a.
Proof. rewrite zlen_to_nat, firstn_app, firstn_all, Nat.sub_diag, firstn_O, app_nil_r. reflexivity. Qed.
Lemma skipn_zlen {A} (a b : list A) : skipn (Z.to_nat (zlen a)) (a ++ b) = b.
Proof. rewrite zlen_to_nat, skipn_app, skipn_all, Nat.sub_diag. reflexivity. Qed.

Lemma list_ind3 {A} (P : list A -> Prop) :
  P [] -> (forall a, P [a]) -> (forall a b, P [a; b]) ->
  (forall a b c l, P l -> P (a :: b :: c :: l)) -> forall l, P l.
Proof.
  intros H0 H1 H2 H3. fix IH 1. intros [|a [|b [|c l]]]; [assumption|apply H1|apply H2|]. apply H3, IH.
Qed.

Lemma zlen_snoc {A} (l : list A) x : zlen (l ++ [x]) = zlen l + 1.
Proof. rewrite zlen_app; reflexivity. Qed.

Lemma Forall_first {A} (P : A -> Prop) n l : Forall P l -> Forall P (firstn n l).
Proof.
  intros H. rewrite <- (firstn_skipn n l) in H. apply Forall_app in H. exact (proj1 H).
Qed.
Lemma Forall_skip {A} (P : A -> Prop) n l : Forall P l -> Forall P (skipn n l).
Proof.
  intros H. rewrite <- (firstn_skipn n l) in H. apply Forall_app in H. exact (proj2 H).
Qed.
