(** The functions of src/charstr_decompose.c once more, with their cost: one for each codepoint
    that is decoded, for each call of decompose_fully and for each byte that is moved by memcpy
    or memmove. C121_same says that the results are those of the functions of NormModel.v. *)
From Verif Require Import Base CMem CharstrModel Utf8Model NormModel.
Open Scope list_scope.
Open Scope Z_scope.

(** src/charstr_decompose.c:39-40: [for_each] *)
Fixpoint for_each_cost (f : Z -> list Z -> option Z -> res (list Z * option Z * Z)) (dp : list Z) (b : list Z) (s : option Z)
  : res (list Z * option Z * Z) :=
  match s with
  | None => Ok (b, s, 0)
  | Some _ =>
      match dp with
      | [] => UB
      | d :: dp =>
          if truth d then
            '(b, s, k) <- f d b s ;;
            '(b, s, k') <- for_each_cost f dp b s ;;
            Ok (b, s, k + k')
          else Ok (b, s, 0)
      end
  end.
(** src/charstr_decompose.c:29-42 decompose_fully *)
Fixpoint decompose_fully_cost (fuel : nat) (codepoint : Z) (b : list Z) (s end_ : option Z) : res (list Z * option Z * Z) :=
  match fuel with
  | O => NoFuel
  | S fuel =>
      match _charstr_unicode_decomposition codepoint with
      | None =>
          '(b, hangul_end) <- decompose_hangul codepoint b s end_ ;;
          match hangul_end with
          | Some _ => Ok (b, hangul_end, 1)
          | None => '(b, s) <- charstr_encode_utf8_codepoint codepoint b s end_ ;; Ok (b, s, 1)
          end
      | Some dp =>
          '(b, s, k) <- for_each_cost (fun d b s => decompose_fully_cost fuel d b s end_) dp b s ;;
          Ok (b, s, 1 + k)
      end
  end.

(** src/charstr_decompose.c:60-75: [sift] *)
Fixpoint sift_cost (fuel : nat) (b : list Z) (t s after_s end_ ccc : Z) : res (list Z * Z) :=
  match fuel with
  | O => NoFuel
  | S fuel =>
      '(after_t, t_cp) <- decode_at b t end_ ;;
      let t_ccc := charstr_unicode_canonical_combining_class t_cp in
      if t_ccc >? ccc then
        let s_count := after_s - s in
        snippet <- slice b s s_count ;;
        moved <- slice b t (s - t) ;;
        b <- blit b (t + s_count) moved ;;
        b <- blit b t snippet ;;
        Ok (b, 1 + s_count + (s - t) + s_count)
      else
        '(b, k) <- sift_cost fuel b after_t s after_s end_ ccc ;;
        Ok (b, 1 + k)
  end.
(** src/charstr_decompose.c:48-78: [sort_loop] *)
Fixpoint sort_loop_cost (fuel : nat) (b : list Z) (begin s end_ last_ccc : Z) : res (list Z * Z) :=
  match fuel with
  | O => NoFuel
  | S fuel =>
      if s =? end_ then Ok (b, 0)
      else
        '(after_s, codepoint) <- decode_at b s end_ ;;
        let ccc := charstr_unicode_canonical_combining_class codepoint in
        if ccc =? 0 then
          '(b, k) <- sort_loop_cost fuel b after_s after_s end_ 0 ;; Ok (b, 1 + k)
        else if ccc >=? last_ccc then
          '(b, k) <- sort_loop_cost fuel b begin after_s end_ ccc ;; Ok (b, 1 + k)
        else
          '(b, k) <- sift_cost (S (length b)) b begin s after_s end_ ccc ;;
          '(b, k') <- sort_loop_cost fuel b begin after_s end_ last_ccc ;;
          Ok (b, 1 + k + k')
  end.
(** src/charstr_decompose.c:44-79 sort_combining_characters *)
Definition sort_combining_characters_cost (b : list Z) (begin end_ : Z) : res (list Z * Z) :=
  sort_loop_cost (S (length b)) b begin begin end_ 0.

(** src/charstr_decompose.c:85-97: [decompose_loop] *)
Fixpoint decompose_loop_cost (fuel : nat) (s : list Z) (end_ : option Z) (b : list Z) (q output_end : Z)
  : res (list Z * (Z + Z) * Z) :=
  match fuel with
  | O => NoFuel
  | S fuel =>
      if at_end s end_ then Ok (b, inl q, 0)
      else
        c <- cur s ;;
        if truth c then
          d <- charstr_decode_utf8_codepoint (Some s) end_ ;;
          match d with
          | None => Ok (b, inr EILSEQ, 1)
          | Some (s, codepoint) =>
              '(b, q, k) <- decompose_fully_cost recursion_depth codepoint b (Some q) (Some output_end) ;;
              match q with
              | None => Ok (b, inr EOVERFLOW, 1 + k)
              | Some q => '(b, r, k') <- decompose_loop_cost fuel s end_ b q output_end ;; Ok (b, r, 1 + k + k')
              end
          end
        else Ok (b, inl q, 0)
  end.

(** src/charstr_decompose.c:81-105 charstr_unicode_decompose *)
Definition charstr_unicode_decompose_cost (s : list Z) (end_ : option Z) (b : list Z) (output output_end : Z)
  : res (list Z * (Z + Z) * Z) :=
  '(b, r, k) <- decompose_loop_cost (S (length s)) s end_ b output output_end ;;
  match r with
  | inr e => Ok (b, inr e, k)
  | inl q =>
      if q =? output_end then Ok (b, inr EOVERFLOW, k)
      else
        b <- wr b q 0 ;;
        '(b, k') <- sort_combining_characters_cost b output q ;;
        Ok (b, inl q, k + k')
  end.
