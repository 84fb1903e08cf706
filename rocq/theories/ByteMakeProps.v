(** Property C112: making a byte array of any size. *)
From Verif Require Import Base CMem ByteArrayModel ByteArrayProofs ByteMemModel.

(** False of the code: with [max_size] 0 the terminating NUL is written to a
    block of no bytes (src/bytearray.c:24-25), whatever the state of the memory. *)
Theorem C112_refuted : forall junk,
  make_byte_array junk 0 = UB /\ forall m, p_make_byte_array junk m 0 = UB.
Proof.
  intros junk. split; [reflexivity|]. intros m.
  unfold p_make_byte_array, new_arr, new_block, store, the_block, put. cbn. rewrite Z.eqb_refl. reflexivity.
Qed.
Print Assumptions C112_refuted.

(** What holds: every other size gives an empty array of one reference, with its
    NUL, in a block that has room for it and is not larger than allowed. *)
Theorem C112_made_partial : forall junk m, 0 <= m < 2 ^ 64 ->
  m = 0 \/
  exists a, make_byte_array junk m = Ok a /\ byte_array_size a = 0 /\ ref_count a = 1 /\
    nth_error (byte_array_data a) 0 = Some 0 /\ 1 <= zlen (byte_array_data a) <= m.
Proof.
  intros junk m Hm. destruct (Z.eq_dec m 0) as [->|H0]; [left; reflexivity|right].
  unfold make_byte_array.
  set (sz := if 128 >? m then m else 128).
  assert (Hsz : 1 <= sz <= m) by (unfold sz; destruct (128 >? m) eqn:E; lia).
  assert (Hf : zlen (fresh_block junk sz) = sz) by (apply fresh_block_zlen; lia).
  destruct (fresh_block junk sz) as [|x b]; [change (zlen (@nil Z)) with 0 in Hf; lia|].
  change (wr (x :: b) 0 0) with (wr ([] ++ x :: b) (zlen (@nil Z)) 0). rewrite wr_end. cbn [bind app].
  eexists. split; [reflexivity|]. unfold byte_array_size, byte_array_data. cbn [data cursor ref_count nth_error].
  rewrite !zlen_cons in *. repeat split; lia.
Qed.
Print Assumptions C112_made_partial.

(** The smallest one that works: it has room for the NUL only. *)
Example C112_example : exists a,
  make_byte_array (fun _ => 7) 1 = Ok a /\ byte_array_data a = [0] /\
  byte_array_append (fun _ => 7) a [] 0 = Ok (a, true) /\
  exists a', byte_array_append (fun _ => 7) a [65] 1 = Ok (a', false) /\ byte_array_data a' = [0].
Proof.
  eexists. split; [reflexivity|]. split; [reflexivity|]. split; [vm_compute; reflexivity|].
  eexists. split; vm_compute; reflexivity.
Qed.
