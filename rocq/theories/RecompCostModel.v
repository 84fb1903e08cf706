(** The functions of src/charstr_recompose.c once more, with their cost: one for each codepoint
    that is decoded, for each turn of the loop of recomposer_blocked and for each codepoint that
    the first recomposer hands over to the second. C122_same says that the results are those of
    the functions of NormModel.v. *)
From Verif Require Import Base CMem CharstrModel Utf8Model NormModel.
Open Scope list_scope.
Open Scope Z_scope.

(** src/charstr_recompose.c:44-51: [blocked_from] *)
Fixpoint blocked_from_cost (count : nat) (seq : list Z) (j ccc : Z) : res (bool * Z) :=
  match count with
  | O => Ok (false, 0)
  | S count =>
      c <- rd seq j ;;
      if charstr_unicode_canonical_combining_class c >=? ccc then Ok (true, 1)
      else '(b, k) <- blocked_from_cost count seq (j + 1) ccc ;; Ok (b, 1 + k)
  end.
(** src/charstr_recompose.c:44-51 recomposer_blocked *)
Definition recomposer_blocked_cost (seq : list Z) (count ccc : Z) : res (bool * Z) :=
  blocked_from_cost (Z.to_nat count) seq 0 ccc.

(** src/charstr_recompose.c:53-95 recomposer_feed *)
Definition recomposer_feed_cost (r : recomposer) (codepoint errno : Z) : res (recomposer * Z * Z * Z) :=
  match r_state r with
  | RECOMPOSER_INIT =>
      if truth (charstr_unicode_canonical_combining_class codepoint) then Ok (r, codepoint, errno, 0)
      else Ok (set_wr 0 (set_starter codepoint (set_state RECOMPOSER_STARTED r)), -1, EAGAIN, 0)
  | RECOMPOSER_STARTED =>
      let ccc := charstr_unicode_canonical_combining_class codepoint in
      '(b, k) <- recomposer_blocked_cost (r_ccs r) (r_wr r) ccc ;;
      let p := if (b : bool) then -1 else _charstr_unicode_primary_composite (r_starter r) codepoint in
      if p >=? 0 then Ok (set_starter p r, -1, EAGAIN, k)
      else if truth ccc then
        if r_wr r >=? MAX_CC_SEQ_LENGTH then Ok (r, -1, ENOBUFS, k)
        else
          ccs <- wr (r_ccs r) (r_wr r) codepoint ;;
          Ok (set_wr (r_wr r + 1) (set_ccs ccs r), -1, EAGAIN, k)
      else
        Ok (set_rd 0 (set_state RECOMPOSER_DELIVERING (set_starter codepoint r)), r_starter r, errno, k)
  | _ => Abort
  end.

(** src/charstr_recompose.c:239-249, 254-264: [deliver] *)
Fixpoint deliver_cost (fuel : nat) (codepoint : Z) (r : recomposer) (h : hangul_recomposer) (b : list Z) (q output_end errno : Z)
  : res (list Z * Z * option (recomposer * hangul_recomposer * Z) * Z) :=
  match fuel with
  | O => NoFuel
  | S fuel =>
      if codepoint >=? 0 then
        '(h, codepoint) <- hangul_recomposer_feed h codepoint ;;
        '(b, q) <- (if codepoint >=? 0 then charstr_encode_utf8_codepoint codepoint b (Some q) (Some output_end)
                    else Ok (b, Some q)) ;;
        match q with
        | None => Ok (b, EOVERFLOW, None, 1)
        | Some q =>
            '(r, codepoint, errno) <- recomposer_read r errno ;;
            '(b, errno, o, k) <- deliver_cost fuel codepoint r h b q output_end errno ;;
            Ok (b, errno, o, 1 + k)
        end
      else Ok (b, errno, Some (r, h, q), 0)
  end.

(** src/charstr_recompose.c:232-252: [recompose_loop] *)
Fixpoint recompose_loop_cost (fuel : nat) (s : list Z) (end_ : option Z) (r : recomposer) (h : hangul_recomposer)
  (b : list Z) (q output_end errno : Z) : res (list Z * Z * option (recomposer * hangul_recomposer * Z) * Z) :=
  match fuel with
  | O => NoFuel
  | S fuel =>
      if at_end s end_ then Ok (b, errno, Some (r, h, q), 0)
      else
        c <- cur s ;;
        if truth c then
          d <- charstr_decode_utf8_codepoint (Some s) end_ ;;
          match d with
          | None => Ok (b, EILSEQ, None, 1)
          | Some (s, codepoint) =>
              '(r, codepoint, errno, k1) <- recomposer_feed_cost r codepoint errno ;;
              '(b, errno, o, k2) <- deliver_cost deliver_fuel codepoint r h b q output_end errno ;;
              match o with
              | None => Ok (b, errno, None, 1 + k1 + k2)
              | Some (r, h, q) =>
                  if errno =? EAGAIN then
                    '(b, errno, o, k3) <- recompose_loop_cost fuel s end_ r h b q output_end errno ;;
                    Ok (b, errno, o, 1 + k1 + k2 + k3)
                  else Ok (b, errno, None, 1 + k1 + k2)
              end
          end
        else Ok (b, errno, Some (r, h, q), 0)
  end.

(** src/charstr_recompose.c:223-281 charstr_unicode_recompose *)
Definition charstr_unicode_recompose_cost (r : recomposer) (h : hangul_recomposer) (s : list Z) (end_ : option Z)
  (b : list Z) (output output_end errno : Z) : res (list Z * (Z + Z) * Z) :=
  '(b, errno, o, k1) <- recompose_loop_cost (S (length s)) s end_ (init_recomposer r) (init_hangul_recomposer h) b output output_end errno ;;
  match o with
  | None => Ok (b, inr errno, k1)
  | Some (r, h, q) =>
      '(r, codepoint, errno) <- recomposer_terminate r errno ;;
      '(b, errno, o, k2) <- deliver_cost deliver_fuel codepoint r h b q output_end errno ;;
      match o with
      | None => Ok (b, inr errno, k1 + k2)
      | Some (r, h, q) =>
          if negb (errno =? ENODATA) then Ok (b, inr errno, k1 + k2)
          else
            '(h, codepoint) <- hangul_recomposer_terminate h ;;
            '(b, q) <- (if codepoint >=? 0 then charstr_encode_utf8_codepoint codepoint b (Some q) (Some output_end)
                        else Ok (b, Some q)) ;;
            match q with
            | None => Ok (b, inr EOVERFLOW, k1 + k2)
            | Some q => if q =? output_end then Ok (b, inr EOVERFLOW, k1 + k2) else b <- wr b q 0 ;; Ok (b, inl q, k1 + k2)
            end
      end
  end.
