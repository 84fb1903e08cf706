(** Properties C14-C18 of src/bytearray.c. [run_new junk m ops] creates a byte
    array with max_size [m] and carries out the operations with the model's
    functions ([junk]: content of freshly allocated memory); [spec_run],
    [intended] are the specification on lists (ByteArraySpec.v). *)
From Verif Require Import Base CMem ByteArrayModel ByteArraySpec ByteArrayProofs.
From Coq Require Import ZifyBool ZifyNat.

(** C14: content, size and success of every operation in a history. *)
Theorem C14_content : forall junk m ops,
  1 <= m < 2 ^ 64 -> Forall (fun jo => op_ok (snd jo)) ops ->
  exists a, run_new junk m ops = Ok (a, snd (spec_run m [] (map snd ops))) /\
    let l := fst (spec_run m [] (map snd ops)) in
    byte_array_size a = zlen l /\ firstn (length l) (byte_array_data a) = l.
Proof. exact content_ok. Qed.
Print Assumptions C14_content.

Definition some_junk (n : nat) : Z := 170.
Definition some_cb : read_cb := fun n => (firstn (Z.to_nat n) [9; 8; 7], Z.min n 2, 0).
Definition some_ops : list ((nat -> Z) * op) :=
  [(some_junk, Append [1; 2; 3; 4]); (some_junk, Copy 2 [5; 6; 7]); (some_junk, Resize 8 66);
   (some_junk, AppendString [65; 66; 67; 68]); (some_junk, Stream 100 some_cb); (some_junk, CopyString 11 [65])].

Lemma some_cb_ok : cb_ok some_cb.
Proof. intros n Hn. unfold some_cb, zlen. rewrite firstn_length. cbn [length]. lia. Qed.

Lemma some_ops_ok : Forall (fun jo => op_ok (snd jo)) some_ops.
Proof.
  unfold some_ops.
  repeat (apply Forall_cons; [cbn [snd op_ok]|]); try apply Forall_nil; cbn; try lia.
  - split; [lia|]. repeat constructor; discriminate.
  - split; [lia|exact some_cb_ok].
  - split; [lia|]. split; [lia|]. repeat constructor; discriminate.
Qed.

Example C14_example :
  Forall (fun jo => op_ok (snd jo)) some_ops /\
  spec_run 12 [] (map snd some_ops) =
    ([1; 2; 5; 6; 7; 66; 66; 66; 9; 8], [true; true; true; false; true; false]) /\
  exists a, run_new some_junk 12 some_ops = Ok (a, [true; true; true; false; true; false]) /\
    firstn 11 (byte_array_data a) = [1; 2; 5; 6; 7; 66; 66; 66; 9; 8; 0].
Proof. split; [exact some_ops_ok|]. split; [reflexivity|]. eexists. vm_compute. split; reflexivity. Qed.

(** C15: bounds for every callback that stays within its buffer; the NUL if
    the callback leaves the buffer alone when it delivers nothing. *)
Theorem C15_bounds_and_nul_partial : forall junk m ops,
  1 <= m < 2 ^ 64 -> Forall (fun jo => op_ok (snd jo)) ops ->
  exists a bs, run_new junk m ops = Ok (a, bs) /\
    0 <= byte_array_size a < m /\ byte_array_size a < zlen (byte_array_data a) /\
    (Forall (fun jo => op_clean (snd jo)) ops ->
     nth (Z.to_nat (byte_array_size a)) (byte_array_data a) 1 = 0).
Proof. exact bounds_ok. Qed.
Print Assumptions C15_bounds_and_nul_partial.

(** Missing in C15: for a callback that stores something and then reports
    failure (within its contract) the NUL terminator is lost. *)
Theorem C15_refuted : exists junk m ops a bs,
  1 <= m < 2 ^ 64 /\ Forall (fun jo => op_ok (snd jo)) ops /\
  run_new junk m ops = Ok (a, bs) /\
  nth (Z.to_nat (byte_array_size a)) (byte_array_data a) 0 <> 0.
Proof.
  exists some_junk, 12, [(some_junk, Append [1]); (some_junk, Stream 5 (fun n => (firstn (Z.to_nat n) [65], -1, 5)))].
  eexists _, _. split; [lia|]. split.
  - apply Forall_cons; [cbn; lia|]. apply Forall_cons; [cbn [snd op_ok]|apply Forall_nil].
    split; [lia|]. intros n Hn. unfold zlen. rewrite firstn_length. cbn [length]. lia.
  - split; [vm_compute; reflexivity|]. vm_compute. discriminate.
Qed.
Print Assumptions C15_refuted.

(** C16: in every reachable state every operation succeeds exactly if the
    intended result and its NUL fit; otherwise the content is unchanged. *)
Theorem C16_failures_atomic : forall junk m ops o junk', 1 <= m < 2 ^ 64 ->
  Forall (fun jo => op_ok (snd jo)) ops -> op_ok o ->
  exists a bs, run_new junk m ops = Ok (a, bs) /\
  exists a' ok, step junk' a o = Ok (a', ok) /\
    (ok = false ->
     byte_array_size a' = byte_array_size a /\
     firstn (Z.to_nat (byte_array_size a)) (byte_array_data a') =
     firstn (Z.to_nat (byte_array_size a)) (byte_array_data a)) /\
    (ok = true <->
     exists l', intended m (firstn (Z.to_nat (byte_array_size a)) (byte_array_data a)) o = Some l' /\
                zlen l' + 1 <= m).
Proof. exact failure_atomic. Qed.
Print Assumptions C16_failures_atomic.

Example C16_example :
  op_ok (Copy 0 [1; 2; 3]) /\ op_ok (Resize (2 ^ 64 - 1) 0) /\
  (exists a bs a', run_new some_junk 3 [(some_junk, Append [5])] = Ok (a, bs) /\
    step some_junk a (Resize (2 ^ 64 - 1) 0) = Ok (a', false) /\ errno a' = ENOSPC).
Proof. cbn. split; [lia|]. split; [lia|]. eexists _, _, _. split; [vm_compute; reflexivity|]. split; [vm_compute; reflexivity|]. vm_compute; reflexivity. Qed.

(** C17 *)
Theorem C17_append_stream : forall junk m ops len cb junk', 1 <= m < 2 ^ 64 ->
  Forall (fun jo => op_ok (snd jo)) ops -> 0 <= len < 2 ^ 64 -> cb_ok cb ->
  exists a bs, run_new junk m ops = Ok (a, bs) /\
  let room := m - 1 - byte_array_size a in
  let content x := firstn (Z.to_nat (byte_array_size x)) (byte_array_data x) in
  if (room =? 0) && (0 <? len) then
    exists a', byte_array_append_stream junk' a cb len = Ok (a', None, -1) /\
      errno a' = ENOSPC /\ content a' = content a
  else
    let n := Z.min len room in
    let '(w, count, e) := cb n in
    exists a', byte_array_append_stream junk' a cb len = Ok (a', Some n, count) /\
      errno a' = e /\
      content a' = if count >? 0 then content a ++ firstn (Z.to_nat count) w else content a.
Proof. exact stream_after. Qed.
Print Assumptions C17_append_stream.

Example C17_example : cb_ok some_cb /\
  exists a bs a', run_new some_junk 3 [] = Ok (a, bs) /\
    byte_array_append_stream some_junk a some_cb 100 = Ok (a', Some 2, 2) /\
    byte_array_append_stream some_junk a' some_cb 1 =
      Ok (BA (data a') 2 3 3 1 ENOSPC, None, -1).
Proof.
  split; [exact some_cb_ok|]. eexists _, _, _. split; [vm_compute; reflexivity|]. split; [vm_compute; reflexivity|]. vm_compute; reflexivity.
Qed.

(** C18: after any legal history of share and destroy on a new array, it has
    been freed iff no reference is left, and is otherwise unchanged. *)
Theorem C18_sharing : forall junk m ops, 1 <= m < 2 ^ 64 -> refs_ok 1 ops ->
  exists a o, make_byte_array junk m = Ok a /\ ref_run (Some a) ops = Ok o /\
    match o with
    | Some a' => 0 < refs 1 ops /\ byte_array_data a' = byte_array_data a /\ byte_array_size a' = byte_array_size a
    | None => refs 1 ops = 0
    end.
Proof. exact sharing_ok. Qed.
Print Assumptions C18_sharing.

Example C18_example : refs_ok 1 [Share; Destroy; Share; Destroy; Destroy] /\
  refs 1 [Share; Destroy; Share; Destroy; Destroy] = 0 /\
  refs 1 [Share; Destroy; Share; Destroy] = 1.
Proof. cbn. lia. Qed.
