(** What a user of the smart pointers counts on. *)
From Verif Require Import Base CppPtrModel.
Open Scope list_scope.
Open Scope Z_scope.

(** The objects (other than NULL) that a program hands over to smart pointers. *)
Definition handed_by (o : op) : list (kind * Z) :=
  match o with
  | Make k p | Assign k _ p | Reset k _ p => if p =? 0 then [] else [(k, p)]
  | _ => []
  end.
Definition handed (os : list op) : list (kind * Z) := concat (map handed_by os).
(** The objects that smart pointers hold. *)
Definition held_by (x : option smart) : list (kind * Z) :=
  match x with
  | Some x => if s_ptr x =? 0 then [] else [(s_kind x, s_ptr x)]
  | None => []
  end.
Definition held (st : cpp) : list (kind * Z) := concat (map held_by (c_vars st)).
(** The call that destroys an object. *)
Definition destruction (x : kind * Z) : cfun * Z :=
  (match fst x with
   | AllocPtr => C_fsfree
   | ByteArrayPtr => C_destroy_byte_array
   | CharstrUrlEncoderPtr => C_charstr_destroy_url_encoder
   end, snd x).
(** All smart pointers are out of scope. *)
Definition all_gone (st : cpp) : Prop := forall v, nth_error (c_vars st) v <> None -> nth_error (c_vars st) v = Some None.
(** [v] holds an object. *)
Definition holds (st : cpp) (v : nat) : Prop := exists k p d, nth_error (c_vars st) v = Some (Some (mk_smart k p d)) /\ p <> 0.
