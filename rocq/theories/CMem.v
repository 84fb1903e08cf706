(** libc functions on blocks: memcpy/memmove, memset, strlen, and realloc. *)
From Verif Require Import Base.
From Coq Require Import ZifyBool ZifyNat.

(** memcpy/memmove of the bytes [d] into block [b] at index [i]. *)
Definition blit (b : list Z) (i : Z) (d : list Z) : res (list Z) :=
  if (0 <=? i) && (i + zlen d <=? zlen b)
  then Ok (firstn (Z.to_nat i) b ++ d ++ skipn (Z.to_nat (i + zlen d)) b)
  else UB.

(** realloc to [n] bytes: the common prefix is kept, the rest is arbitrary. *)
Definition realloc (junk : nat -> Z) (b : list Z) (n : Z) : list Z :=
  firstn (Z.to_nat n) b ++ fresh_block junk (n - zlen b).

(** strlen of the string that starts at the beginning of the block. *)
Fixpoint strlen (s : list Z) : res Z :=
  match s with
  | [] => UB
  | c :: s => if c =? 0 then Ok 0 else n <- strlen s ;; Ok (1 + n)
  end.

(** A C string without its terminator. *)
Definition no_nul (s : list Z) : Prop := Forall (fun c => c <> 0) s.

Lemma strlen_ok s r : no_nul s -> strlen (s ++ 0 :: r) = Ok (zlen s).
Proof.
  induction s as [|c s IH]; intros H; [reflexivity|]. inversion_clear H as [|? ? H1 H2].
  cbn [strlen app]. replace (c =? 0) with false by lia. rewrite IH by assumption. cbn [bind].
  rewrite zlen_cons. reflexivity.
Qed.

Lemma blit_app pre old post d i :
  i = zlen pre -> zlen old = zlen d -> blit (pre ++ old ++ post) i d = Ok (pre ++ d ++ post).
Proof.
  intros -> Hl. unfold blit. rewrite !zlen_app. pose proof (zlen_nonneg pre). pose proof (zlen_nonneg post).
  replace ((0 <=? zlen pre) && (zlen pre + zlen d <=? zlen pre + (zlen old + zlen post))) with true by lia.
  rewrite firstn_zlen. rewrite <- Hl. rewrite <- zlen_app. rewrite (app_assoc pre old post), skipn_zlen. reflexivity.
Qed.

Lemma realloc_zlen junk b n : 0 <= n -> zlen (realloc junk b n) = n.
Proof.
  intros Hn. unfold realloc. rewrite zlen_app. unfold zlen at 1. rewrite firstn_length.
  unfold fresh_block. unfold zlen. rewrite map_length, seq_length. lia.
Qed.

Lemma realloc_grow junk b n : zlen b <= n -> realloc junk b n = b ++ fresh_block junk (n - zlen b).
Proof.
  intros H. unfold realloc. rewrite firstn_all2; [reflexivity|]. unfold zlen in H. lia.
Qed.
