(** C131: what errno is after a call. *)
From Verif Require Import Base CMem CharstrModel CharstrSpec UrlModel UrlSpec Base64Model Base64Spec Base64Round ByteArrayModel ByteArraySpec ErrnoModel Errno.

(** charstr_url_decode: EILSEQ exactly with NULL, and then *size is as it was; else errno is as it
    was, and *size, if there is one, is the length. *)
Theorem C131_url : forall junk errno plus t r size, text t -> zlen t + 1 < 2 ^ 64 ->
  (illegal t /\ url_decode junk errno (t ++ 0 :: r) plus size = Ok (None, size, 84)) \/
  (~ illegal t /\ exists d, UrlSpec.decodes plus t d /\
     url_decode junk errno (t ++ 0 :: r) plus size = Ok (Some (d ++ [0]), option_map (fun _ => zlen d) size, errno)).
Proof. intros junk errno plus t r size. exact (url_decode_errno junk errno plus t r size). Qed.
Print Assumptions C131_url.

(** base64_decode_buffer: EILSEQ exactly with -1. *)
Theorem C131_base64 : forall errno src n t dest size p62 p63 ignore_wsp,
  text_of src n t -> zlen t < 2 ^ 63 -> 0 <= size <= zlen dest -> -128 <= p62 <= 127 -> -128 <= p63 <= 127 ->
  good_pos (pos_char p62 43) -> good_pos (pos_char p63 47) ->
  let value := code_value (pos_char p62 43) (pos_char p63 47) in
  let wsp c := ignore_wsp && code_wsp c in
  exists count dest' errno', decode_buffer errno src n dest size p62 p63 ignore_wsp = Ok (count, dest', errno') /\
    ((exists d, Base64Spec.decodes value wsp t d /\ count = zlen d /\ errno' = errno) \/
     (~ (exists d, Base64Spec.decodes value wsp t d) /\ count = -1 /\ errno' = 84)).
Proof.
  intros errno src n t dest size p62 p63 ign Ht Hl Hs H62 H63 G62 G63 value wsp.
  destruct (decode_buffer_errno errno src n t dest size p62 p63 ign Ht Hl Hs H62 H63 G62 G63) as [(d & dest' & D & E)|(N & dest' & E)].
  - exists (zlen d), dest', errno. split; [exact E|]. left. exists d. auto.
  - exists (-1), dest', 84. split; [exact E|]. right. split; [|auto]. intros (d & D). exact (N d D).
Qed.
Print Assumptions C131_base64.

(** base64_decode_simple: the same with NULL, and then *binary_size is as it was. *)
Theorem C131_simple : forall junk errno t r size, Forall (fun c => byte c /\ c <> 0) t -> zlen t < 2 ^ 62 ->
  (exists d, Base64Spec.decodes (code_value 43 47) code_wsp t d /\ decode_simple junk errno (t ++ 0 :: r) size = Ok (Some (d ++ [0]), zlen d, errno)) \/
  (~ (exists d, Base64Spec.decodes (code_value 43 47) code_wsp t d) /\ decode_simple junk errno (t ++ 0 :: r) size = Ok (None, size, 84)).
Proof.
  intros junk errno t r size H L. destruct (decode_simple_errno junk errno t r size H L) as [X|[N X]]; [left; exact X|right].
  split; [|exact X]. intros (d & D). exact (N d D).
Qed.
Print Assumptions C131_simple.

(** Byte arrays, after every history: errno is as it was if the result fits, and also after a copy
    behind the end; it is ENOSPC if the result does not fit. (For byte_array_append_stream, whose
    callback has its own errno, see C17.) *)
Theorem C131_arrays : forall junk m ops junk' o, 1 <= m < 2 ^ 64 -> Forall (fun jo => op_ok (snd jo)) ops -> op_ok o ->
  (forall len cb, o <> Stream len cb) ->
  exists a bs a' ok, run_new junk m ops = Ok (a, bs) /\ step junk' a o = Ok (a', ok) /\
    errno a' = match intended m (firstn (Z.to_nat (byte_array_size a)) (byte_array_data a)) o with
               | None => errno a
               | Some l' => if zlen l' + 1 <=? m then errno a else 28
               end.
Proof. intros junk m ops junk' o H1 H2 H3 H4. exact (array_errno junk m ops o junk' H1 H2 H3 H4). Qed.
Print Assumptions C131_arrays.

Example C131_example :
  url_decode (fun _ => 9) 7 [37; 52; 49; 43; 0] true (Some 5) = Ok (Some [65; 32; 0], Some 2, 7) /\
  url_decode (fun _ => 9) 7 [37; 52; 49; 43; 0] false None = Ok (Some [65; 43; 0], None, 7) /\
  url_decode (fun _ => 9) 7 [97; 37; 52; 0] true (Some 5) = Ok (None, Some 5, 84) /\
  decode_simple (fun _ => 9) 7 [81; 81; 61; 61; 0] 5 = Ok (Some [65; 0], 1, 7) /\
  decode_simple (fun _ => 9) 7 [81; 82; 61; 61; 0] 5 = Ok (None, 5, 84) /\
  decode_buffer 7 [81; 82; 61; 61] 4 [] 0 (-1) (-1) false = Ok (-1, [], 84).
Proof. vm_compute. repeat split. Qed.

Example C131_arrays_example :
  (r <- run_new (fun _ => 9) 4 [(fun _ => 9, Append [65; 66])] ;;
   b <- step (fun _ => 9) (fst r) (Copy 3 [67]) ;;
   c <- step (fun _ => 9) (fst r) (Copy 2 [67; 68]) ;;
   d <- step (fun _ => 9) (fst r) (Copy 2 [67]) ;;
   Ok (errno (fst r), (errno (fst b), snd b), (errno (fst c), snd c), (errno (fst d), snd d))) =
  Ok (0, (0, false), (28, false), (0, true)).
Proof. vm_compute. reflexivity. Qed.
