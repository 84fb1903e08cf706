(** The Punycode decoder of RFC 3492 and the form of encoded host names. *)
From Verif Require Import Base.

(** RFC 3492, section 5: the value of a digit. *)
Definition digit_value (c : Z) : option Z :=
  if (65 <=? c) && (c <=? 90) then Some (c - 65)
  else if (97 <=? c) && (c <=? 122) then Some (c - 97)
  else if (48 <=? c) && (c <=? 57) then Some (c - 48 + 26)
  else None.

(** RFC 3492, section 6.1, with the parameters of section 5: base 36, tmin 1, tmax 26, skew
    38, damp 700. The loop ends after fewer than [log2 delta] passes. *)
Fixpoint scale (passes : nat) (delta k : Z) : Z * Z :=
  match passes with
  | O => (delta, k)
  | S passes => if delta >? (36 - 1) * 26 / 2 then scale passes (delta / (36 - 1)) (k + 36) else (delta, k)
  end.
Definition adapt_bias (delta numpoints : Z) (firsttime : bool) : Z :=
  let delta := if firsttime then delta / 700 else delta / 2 in
  let delta := delta + delta / numpoints in
  let '(delta, k) := scale (Z.to_nat (Z.log2 delta)) delta 0 in
  k + (36 - 1 + 1) * delta / (delta + 38).

(** The threshold of section 6.2 *)
Definition limit (k bias : Z) : Z := if k <=? bias then 1 else if k >=? bias + 26 then 26 else k - bias.

Definition insert_at (i : Z) (c : Z) (l : list Z) : list Z := firstn (Z.to_nat i) l ++ c :: skipn (Z.to_nat i) l.

(** RFC 3492, section 6.2: the main loop, one digit at a time. [oldi], [w] and [k] belong to
    the integer that is being read; the input may not end within an integer. *)
Fixpoint decode_digits (ds : list Z) (n i bias : Z) (out : list Z) (oldi w k : Z) : option (list Z) :=
  match ds with
  | [] => if k =? 36 then Some out else None
  | c :: ds =>
      match digit_value c with
      | None => None
      | Some digit =>
          let i := i + digit * w in
          let t := limit k bias in
          if digit <? t then
            let len := zlen out + 1 in
            let bias := adapt_bias (i - oldi) len (oldi =? 0) in
            let n := n + i / len in
            let i := i mod len in
            decode_digits ds n (i + 1) bias (insert_at i n out) (i + 1) 1 36
          else decode_digits ds n i bias out oldi (w * (36 - t)) (k + 36)
      end
  end.

(** The input is [basic ++ "-" ++ digits], where the digits have no hyphen, or digits only. *)
Fixpoint after_hyphen (s : list Z) : option (list Z * list Z) :=
  match s with
  | [] => None
  | c :: s' =>
      match after_hyphen s' with
      | Some (a, d) => Some (c :: a, d)
      | None => if c =? 45 then Some ([], s') else None
      end
  end.
(** The decoder: [None] if the input is not valid. If there is nothing before the last
    hyphen, the hyphen is read as a digit, which fails. *)
Definition punycode_decode (s : list Z) : option (list Z) :=
  match after_hyphen s with
  | Some (c :: basic, ds) =>
      if forallb (fun c => (0 <=? c) && (c <? 128)) (c :: basic) then decode_digits ds 128 0 72 (c :: basic) 0 1 36
      else None
  | _ => decode_digits s 128 0 72 [] 0 1 36
  end.

(** The examples (B) Chinese (simplified) and (L) of RFC 3492, section 7.1. *)
Example decode_chinese :
  punycode_decode [105;104;113;119;99;114;98;52;99;118;56;97;56;100;113;103;48;53;54;112;113;106;121;101] =
  Some [0x4ED6; 0x4EEC; 0x4E3A; 0x4EC0; 0x4E48; 0x4E0D; 0x8BF4; 0x4E2D; 0x6587].
Proof. vm_compute. reflexivity. Qed.
(** 3B-ww4c5e180e575a65lsy2b *)
Example decode_kinpachi :
  punycode_decode [51;66;45;119;119;52;99;53;101;49;56;48;101;53;55;53;97;54;53;108;115;121;50;98] =
  Some [0x33; 0x5E74; 0x42; 0x7D44; 0x91D1; 0x516B; 0x5148; 0x751F].
Proof. vm_compute. reflexivity. Qed.

(** * Host names *)

(** Labels joined with dots *)
Fixpoint join_dots (ls : list (list Z)) : list Z :=
  match ls with
  | [] => []
  | [l] => l
  | l :: ls => l ++ 46 :: join_dots ls
  end.
(** [ls] are the labels of the host name [s]; the last one is empty if the name ends with
    a dot. *)
Definition labels (s : list Z) (ls : list (list Z)) : Prop :=
  ls <> [] /\ Forall (fun l => ~ In 46 l) ls /\ s = join_dots ls.
