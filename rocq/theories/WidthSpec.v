(** A byte array as a sequence with room for [m] bytes, the NUL included: what remains of a
    sequence of appends. An append that does not fit changes nothing. *)
From Verif Require Import Base CMem ByteArrayModel WidthModel.

Fixpoint appended (m : Z) (l : list Z) (ds : list (list Z)) : list Z :=
  match ds with
  | [] => l
  | d :: ds => appended m (if zlen l + zlen d <? m then l ++ d else l) ds
  end.

(** The same with the functions of the array. *)
Fixpoint append_all_on (w : Z) (junk : nat -> Z) (a : byte_array) (ds : list (list Z)) : res byte_array :=
  match ds with
  | [] => Ok a
  | d :: ds => '(a, _) <- byte_array_append_on w junk a d (zlen d) ;; append_all_on w junk a ds
  end.
