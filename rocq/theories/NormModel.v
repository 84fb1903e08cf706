(** Model of src/charstr_decompose.c, src/charstr_recompose.c and
    src/charstr_unicode.c, and of the table functions that the Python scripts in
    src/ generate from the data files in unicode/.

    Pointers as in CharstrModel.v: an input string is the rest of its block, an
    output buffer is a whole block and an index. errno is threaded through the
    functions that use it. *)
From Verif Require Import Base CMem CharstrModel Utf8Model UcdData.

(** Values of errno (Linux). *)
Definition EAGAIN : Z := 11.
Definition ENODATA : Z := 61.
Definition EOVERFLOW : Z := 75.
Definition EILSEQ : Z := 84.
Definition ENOBUFS : Z := 105.

(** * The generated tables *)

(** A C switch with one case for each row. *)
Fixpoint switch {A} (rows : list (Z * A)) (cp : Z) : option A :=
  match rows with
  | [] => None
  | (k, a) :: rows => if cp =? k then Some a else switch rows cp
  end.

(** src/decomposition.py:5-39 _charstr_unicode_decomposition: the array that is
    returned ends in 0. *)
Definition _charstr_unicode_decomposition (codepoint : Z) : option (list Z) :=
  match switch decomposition_data codepoint with
  | Some d => Some (d ++ [0])
  | None => None
  end.

(** src/canonical_combining_classes.py:5-33
    charstr_unicode_canonical_combining_class; the cases that return 0 are not in
    [ccc_data]. *)
Definition charstr_unicode_canonical_combining_class (codepoint : Z) : Z :=
  match switch ccc_data codepoint with
  | Some c => c
  | None => 0
  end.

(** src/recomposition.py:5-27: the dictionary [recompositions] as a list of
    (cc, starter, codepoint), in the order of insertion. *)
Definition recompositions : list (Z * Z * Z) :=
  flat_map (fun '(codepoint, decomposition) =>
              match decomposition with
              | [starter; cc] =>
                  if existsb (fun x => x =? codepoint) exclusion_data then [] else [(cc, starter, codepoint)]
              | _ => []
              end) decomposition_data.

(** src/recomposition.py:52-63 _charstr_unicode_primary_composite: a later
    insertion into a dictionary overrides an earlier one. *)
Definition _charstr_unicode_primary_composite (starter cc : Z) : Z :=
  fold_left (fun p '(c, s, codepoint) => if (c =? cc) && (s =? starter) then codepoint else p)
    recompositions (-1).

(** src/allowed_in_normal_form.py:9-36: the value of one quick check property of a
    codepoint: None for Y, Some true for N, Some false for M. *)
Definition qc_value (rows : list (Z * Z * bool)) (cp : Z) : option bool :=
  fold_left (fun v '(cp_low, cp_high, value) => if (cp_low <=? cp) && (cp <=? cp_high) then Some value else v)
    rows None.
Definition qc_flags (rows : list (Z * Z * bool)) (disallowed maybe cp : Z) : Z :=
  match qc_value rows cp with
  | Some true => disallowed
  | Some false => maybe
  | None => 0
  end.

(** include/charstr.h:178-185 *)
Definition UNICODE_NFC_DISALLOWED : Z := 0x01.
Definition UNICODE_NFC_MAYBE : Z := 0x02.
Definition UNICODE_NFD_DISALLOWED : Z := 0x04.
Definition UNICODE_NFD_MAYBE : Z := 0x08.
Definition UNICODE_NFKC_DISALLOWED : Z := 0x10.
Definition UNICODE_NFKC_MAYBE : Z := 0x20.
Definition UNICODE_NFKD_DISALLOWED : Z := 0x40.
Definition UNICODE_NFKD_MAYBE : Z := 0x80.

(** src/allowed_in_normal_form.py:37-59 charstr_allowed_unicode_normal_forms; only
    for codepoints 0..0x10ffff there are cases. *)
Definition charstr_allowed_unicode_normal_forms (codepoint : Z) : Z :=
  Z.lor (Z.lor (Z.lor
    (qc_flags nfc_qc_data UNICODE_NFC_DISALLOWED UNICODE_NFC_MAYBE codepoint)
    (qc_flags nfd_qc_data UNICODE_NFD_DISALLOWED UNICODE_NFD_MAYBE codepoint))
    (qc_flags nfkc_qc_data UNICODE_NFKC_DISALLOWED UNICODE_NFKC_MAYBE codepoint))
    (qc_flags nfkd_qc_data UNICODE_NFKD_DISALLOWED UNICODE_NFKD_MAYBE codepoint).

(** * Decomposition *)

(** src/charstr_decompose.c:8-18, src/charstr_recompose.c:167-177 *)
Definition S_BASE : Z := 0xAC00.
Definition L_BASE : Z := 0x1100.
Definition V_BASE : Z := 0x1161.
Definition T_BASE : Z := 0x11A7.
Definition L_COUNT : Z := 19.
Definition V_COUNT : Z := 21.
Definition T_COUNT : Z := 28.
Definition N_COUNT : Z := V_COUNT * T_COUNT.
Definition S_COUNT : Z := L_COUNT * N_COUNT.

(** src/charstr_decompose.c:6-27 decompose_hangul: the block and the returned
    pointer. *)
Definition decompose_hangul (codepoint : Z) (b : list Z) (s end_ : option Z) : res (list Z * option Z) :=
  let i := codepoint - S_BASE in
  if (i <? 0) || (i >=? S_COUNT) then Ok (b, None)
  else
    '(b, s) <- charstr_encode_utf8_codepoint (L_BASE + i / N_COUNT) b s end_ ;;
    '(b, s) <- charstr_encode_utf8_codepoint (V_BASE + i mod N_COUNT / T_COUNT) b s end_ ;;
    if truth (i mod T_COUNT) then charstr_encode_utf8_codepoint (T_BASE + i mod T_COUNT) b s end_
    else Ok (b, s).

(** src/charstr_decompose.c:39-41: while (s && *dp) s = f ( *dp++, s, end); *)
Fixpoint for_each (f : Z -> list Z -> option Z -> res (list Z * option Z)) (dp : list Z) (b : list Z) (s : option Z)
  : res (list Z * option Z) :=
  match s with
  | None => Ok (b, s)
  | Some _ =>
      match dp with
      | [] => UB
      | d :: dp => if truth d then '(b, s) <- f d b s ;; for_each f dp b s else Ok (b, s)
      end
  end.

(** src/charstr_decompose.c:29-42 decompose_fully: [fuel] bounds the depth of the
    recursion. *)
Fixpoint decompose_fully (fuel : nat) (codepoint : Z) (b : list Z) (s end_ : option Z) : res (list Z * option Z) :=
  match fuel with
  | O => NoFuel
  | S fuel =>
      match _charstr_unicode_decomposition codepoint with
      | None =>
          '(b, hangul_end) <- decompose_hangul codepoint b s end_ ;;
          match hangul_end with
          | Some _ => Ok (b, hangul_end)
          | None => charstr_encode_utf8_codepoint codepoint b s end_
          end
      | Some dp => for_each (fun d b s => decompose_fully fuel d b s end_) dp b s
      end
  end.

(** The depth of the recursion that suffices with the tables of unicode/. *)
Definition recursion_depth : nat := 5.

(** charstr_decode_utf8_codepoint at index [s] of block [b] up to index [end_]:
    the returned index and the codepoint. The callers modelled below use the
    results without a check: NULL is UB. *)
Definition decode_at (b : list Z) (s end_ : Z) : res (Z * Z) :=
  if (0 <=? s) && (s <=? zlen b) then
    d <- charstr_decode_utf8_codepoint (Some (skipn (Z.to_nat s) b)) (Some (zlen b - end_)) ;;
    match d with
    | Some (rest, cp) => Ok (zlen b - zlen rest, cp)
    | None => UB
    end
  else UB.

(** The [n] bytes at index [i] *)
Definition slice (b : list Z) (i n : Z) : res (list Z) :=
  if (0 <=? i) && (0 <=? n) && (i + n <=? zlen b) then Ok (firstn (Z.to_nat n) (skipn (Z.to_nat i) b)) else UB.

(** src/charstr_decompose.c:60-75: move the character at [s] before the first one
    from [t] that has a greater class. *)
Fixpoint sift (fuel : nat) (b : list Z) (t s after_s end_ ccc : Z) : res (list Z) :=
  match fuel with
  | O => NoFuel
  | S fuel =>
      '(after_t, t_cp) <- decode_at b t end_ ;;
      let t_ccc := charstr_unicode_canonical_combining_class t_cp in
      if t_ccc >? ccc then
        let s_count := after_s - s in
        snippet <- slice b s s_count ;;
        moved <- slice b t (s - t) ;;
        b <- blit b (t + s_count) moved ;;
        blit b t snippet
      else sift fuel b after_t s after_s end_ ccc
  end.

(** src/charstr_decompose.c:48-78 *)
Fixpoint sort_loop (fuel : nat) (b : list Z) (begin s end_ last_ccc : Z) : res (list Z) :=
  match fuel with
  | O => NoFuel
  | S fuel =>
      if s =? end_ then Ok b
      else
        '(after_s, codepoint) <- decode_at b s end_ ;;
        let ccc := charstr_unicode_canonical_combining_class codepoint in
        if ccc =? 0 then sort_loop fuel b after_s after_s end_ 0
        else if ccc >=? last_ccc then sort_loop fuel b begin after_s end_ ccc
        else
          b <- sift (S (length b)) b begin s after_s end_ ccc ;;
          sort_loop fuel b begin after_s end_ last_ccc
  end.
(** src/charstr_decompose.c:44-79 sort_combining_characters *)
Definition sort_combining_characters (b : list Z) (begin end_ : Z) : res (list Z) :=
  sort_loop (S (length b)) b begin begin end_ 0.

(** src/charstr_decompose.c:85-97: the block, and either the index [q], or the
    value of errno before NULL is returned. *)
Fixpoint decompose_loop (fuel : nat) (s : list Z) (end_ : option Z) (b : list Z) (q output_end : Z)
  : res (list Z * (Z + Z)) :=
  match fuel with
  | O => NoFuel
  | S fuel =>
      if at_end s end_ then Ok (b, inl q)
      else
        c <- cur s ;;
        if truth c then
          d <- charstr_decode_utf8_codepoint (Some s) end_ ;;
          match d with
          | None => Ok (b, inr EILSEQ)
          | Some (s, codepoint) =>
              '(b, q) <- decompose_fully recursion_depth codepoint b (Some q) (Some output_end) ;;
              match q with
              | None => Ok (b, inr EOVERFLOW)
              | Some q => decompose_loop fuel s end_ b q output_end
              end
          end
        else Ok (b, inl q)
  end.

(** src/charstr_decompose.c:81-105 charstr_unicode_decompose: [output] and
    [output_end] are indices of block [b]; the new content of the block, and the
    returned pointer, or errno when NULL is returned. *)
Definition charstr_unicode_decompose (s : list Z) (end_ : option Z) (b : list Z) (output output_end : Z)
  : res (list Z * (Z + Z)) :=
  '(b, r) <- decompose_loop (S (length s)) s end_ b output output_end ;;
  match r with
  | inr e => Ok (b, inr e)
  | inl q =>
      if q =? output_end then Ok (b, inr EOVERFLOW)
      else
        b <- wr b q 0 ;;
        b <- sort_combining_characters b output q ;;
        Ok (b, inl q)
  end.

(** * Recomposition *)

(** src/charstr_recompose.c:6-8 *)
Definition MAX_CC_SEQ_LENGTH : Z := 100.

(** src/charstr_recompose.c:10-16 recomposer_state_t *)
Inductive recomposer_state :=
| RECOMPOSER_INIT
| RECOMPOSER_STARTED
| RECOMPOSER_DELIVERING
| RECOMPOSER_DELIVERING_TERMINATED
| RECOMPOSER_TERMINATED.

(** src/charstr_recompose.c:30-35 recomposer_t *)
Record recomposer := mk_recomposer {
  r_state : recomposer_state;
  r_starter : Z;
  r_ccs : list Z;
  r_wr : Z;
  r_rd : Z }.

Definition set_state st r := mk_recomposer st (r_starter r) (r_ccs r) (r_wr r) (r_rd r).
Definition set_starter c r := mk_recomposer (r_state r) c (r_ccs r) (r_wr r) (r_rd r).
Definition set_ccs l r := mk_recomposer (r_state r) (r_starter r) l (r_wr r) (r_rd r).
Definition set_wr i r := mk_recomposer (r_state r) (r_starter r) (r_ccs r) i (r_rd r).
Definition set_rd i r := mk_recomposer (r_state r) (r_starter r) (r_ccs r) (r_wr r) i.

(** src/charstr_recompose.c:37-40 init_recomposer; the other fields keep whatever
    they were. *)
Definition init_recomposer (r : recomposer) : recomposer := set_state RECOMPOSER_INIT r.

(** src/charstr_recompose.c:44-51 recomposer_blocked, from index [j] *)
Fixpoint blocked_from (count : nat) (seq : list Z) (j ccc : Z) : res bool :=
  match count with
  | O => Ok false
  | S count =>
      c <- rd seq j ;;
      if charstr_unicode_canonical_combining_class c >=? ccc then Ok true
      else blocked_from count seq (j + 1) ccc
  end.
Definition recomposer_blocked (seq : list Z) (count ccc : Z) : res bool :=
  blocked_from (Z.to_nat count) seq 0 ccc.

(** src/charstr_recompose.c:53-95 recomposer_feed: the recomposer, the returned
    value and errno. *)
Definition recomposer_feed (r : recomposer) (codepoint errno : Z) : res (recomposer * Z * Z) :=
  match r_state r with
  | RECOMPOSER_INIT =>
      if truth (charstr_unicode_canonical_combining_class codepoint) then Ok (r, codepoint, errno)
      else Ok (set_wr 0 (set_starter codepoint (set_state RECOMPOSER_STARTED r)), -1, EAGAIN)
  | RECOMPOSER_STARTED =>
      let ccc := charstr_unicode_canonical_combining_class codepoint in
      b <- recomposer_blocked (r_ccs r) (r_wr r) ccc ;;
      let p := if b then -1 else _charstr_unicode_primary_composite (r_starter r) codepoint in
      if p >=? 0 then Ok (set_starter p r, -1, EAGAIN)
      else if truth ccc then
        if r_wr r >=? MAX_CC_SEQ_LENGTH then Ok (r, -1, ENOBUFS)
        else
          ccs <- wr (r_ccs r) (r_wr r) codepoint ;;
          Ok (set_wr (r_wr r + 1) (set_ccs ccs r), -1, EAGAIN)
      else
        Ok (set_rd 0 (set_state RECOMPOSER_DELIVERING (set_starter codepoint r)), r_starter r, errno)
  | _ => Abort
  end.

(** src/charstr_recompose.c:97-111 recomposer_terminate *)
Definition recomposer_terminate (r : recomposer) (errno : Z) : res (recomposer * Z * Z) :=
  match r_state r with
  | RECOMPOSER_INIT => Ok (set_state RECOMPOSER_TERMINATED r, -1, ENODATA)
  | RECOMPOSER_STARTED => Ok (set_rd 0 (set_state RECOMPOSER_DELIVERING_TERMINATED r), r_starter r, errno)
  | _ => Abort
  end.

(** src/charstr_recompose.c:113-139 recomposer_read *)
Definition recomposer_read (r : recomposer) (errno : Z) : res (recomposer * Z * Z) :=
  match r_state r with
  | RECOMPOSER_INIT | RECOMPOSER_STARTED => Ok (r, -1, EAGAIN)
  | RECOMPOSER_DELIVERING =>
      if r_rd r >=? r_wr r then Ok (set_wr 0 (set_state RECOMPOSER_STARTED r), -1, EAGAIN)
      else c <- rd (r_ccs r) (r_rd r) ;; Ok (set_rd (r_rd r + 1) r, c, errno)
  | RECOMPOSER_DELIVERING_TERMINATED =>
      if r_rd r >=? r_wr r then Ok (set_state RECOMPOSER_TERMINATED r, -1, ENODATA)
      else c <- rd (r_ccs r) (r_rd r) ;; Ok (set_rd (r_rd r + 1) r, c, errno)
  | RECOMPOSER_TERMINATED => Ok (r, -1, ENODATA)
  end.

(** src/charstr_recompose.c:141-145 hangul_recomposer_state_t *)
Inductive hangul_state :=
| HANGUL_RECOMPOSER_INIT
| HANGUL_RECOMPOSER_STARTED
| HANGUL_RECOMPOSER_TERMINATED.

(** src/charstr_recompose.c:154-157 hangul_recomposer_t *)
Record hangul_recomposer := mk_hangul { h_state : hangul_state; h_next : Z }.

(** src/charstr_recompose.c:159-162 init_hangul_recomposer *)
Definition init_hangul_recomposer (h : hangul_recomposer) : hangul_recomposer :=
  mk_hangul HANGUL_RECOMPOSER_INIT (h_next h).

(** src/charstr_recompose.c:164-207 hangul_recomposer_feed *)
Definition hangul_recomposer_feed (h : hangul_recomposer) (codepoint : Z) : res (hangul_recomposer * Z) :=
  match h_state h with
  | HANGUL_RECOMPOSER_INIT => Ok (mk_hangul HANGUL_RECOMPOSER_STARTED codepoint, -1)
  | HANGUL_RECOMPOSER_STARTED =>
      let li := h_next h - L_BASE in
      let vi := codepoint - V_BASE in
      if (li >=? 0) && (li <? L_COUNT) && ((vi >=? 0) && (vi <? V_COUNT)) then
        Ok (mk_hangul HANGUL_RECOMPOSER_STARTED (S_BASE + (li * V_COUNT + vi) * T_COUNT), -1)
      else
        let si := h_next h - S_BASE in
        let ti := codepoint - T_BASE in
        if (si >=? 0) && (si <? S_COUNT) && negb (truth (si mod T_COUNT)) && ((ti >? 0) && (ti <? T_COUNT)) then
          Ok (mk_hangul HANGUL_RECOMPOSER_STARTED (h_next h + ti), -1)
        else Ok (mk_hangul HANGUL_RECOMPOSER_STARTED codepoint, h_next h)
  | HANGUL_RECOMPOSER_TERMINATED => Abort
  end.

(** src/charstr_recompose.c:209-221 hangul_recomposer_terminate *)
Definition hangul_recomposer_terminate (h : hangul_recomposer) : res (hangul_recomposer * Z) :=
  match h_state h with
  | HANGUL_RECOMPOSER_INIT => Ok (mk_hangul HANGUL_RECOMPOSER_TERMINATED (h_next h), -1)
  | HANGUL_RECOMPOSER_STARTED => Ok (mk_hangul HANGUL_RECOMPOSER_TERMINATED (h_next h), h_next h)
  | HANGUL_RECOMPOSER_TERMINATED => Abort
  end.

(** src/charstr_recompose.c:239-249, 254-264: deliver codepoints until there are no
    more. The block, and errno; and the recomposers and the index [q], or [None]
    if NULL is returned. *)
Fixpoint deliver (fuel : nat) (codepoint : Z) (r : recomposer) (h : hangul_recomposer) (b : list Z) (q output_end errno : Z)
  : res (list Z * Z * option (recomposer * hangul_recomposer * Z)) :=
  match fuel with
  | O => NoFuel
  | S fuel =>
      if codepoint >=? 0 then
        '(h, codepoint) <- hangul_recomposer_feed h codepoint ;;
        '(b, q) <- (if codepoint >=? 0 then charstr_encode_utf8_codepoint codepoint b (Some q) (Some output_end)
                    else Ok (b, Some q)) ;;
        match q with
        | None => Ok (b, EOVERFLOW, None)
        | Some q =>
            '(r, codepoint, errno) <- recomposer_read r errno ;;
            deliver fuel codepoint r h b q output_end errno
        end
      else Ok (b, errno, Some (r, h, q))
  end.
Definition deliver_fuel : nat := Z.to_nat (MAX_CC_SEQ_LENGTH + 3).

(** src/charstr_recompose.c:232-252 *)
Fixpoint recompose_loop (fuel : nat) (s : list Z) (end_ : option Z) (r : recomposer) (h : hangul_recomposer)
  (b : list Z) (q output_end errno : Z) : res (list Z * Z * option (recomposer * hangul_recomposer * Z)) :=
  match fuel with
  | O => NoFuel
  | S fuel =>
      if at_end s end_ then Ok (b, errno, Some (r, h, q))
      else
        c <- cur s ;;
        if truth c then
          d <- charstr_decode_utf8_codepoint (Some s) end_ ;;
          match d with
          | None => Ok (b, EILSEQ, None)
          | Some (s, codepoint) =>
              '(r, codepoint, errno) <- recomposer_feed r codepoint errno ;;
              '(b, errno, o) <- deliver deliver_fuel codepoint r h b q output_end errno ;;
              match o with
              | None => Ok (b, errno, None)
              | Some (r, h, q) =>
                  if errno =? EAGAIN then recompose_loop fuel s end_ r h b q output_end errno
                  else Ok (b, errno, None)
              end
          end
        else Ok (b, errno, Some (r, h, q))
  end.

(** src/charstr_recompose.c:223-281 charstr_unicode_recompose: [r] and [h] are the
    two local variables before their initialization; results as for
    [charstr_unicode_decompose]. *)
Definition charstr_unicode_recompose (r : recomposer) (h : hangul_recomposer) (s : list Z) (end_ : option Z)
  (b : list Z) (output output_end errno : Z) : res (list Z * (Z + Z)) :=
  '(b, errno, o) <- recompose_loop (S (length s)) s end_ (init_recomposer r) (init_hangul_recomposer h) b output output_end errno ;;
  match o with
  | None => Ok (b, inr errno)
  | Some (r, h, q) =>
      '(r, codepoint, errno) <- recomposer_terminate r errno ;;
      '(b, errno, o) <- deliver deliver_fuel codepoint r h b q output_end errno ;;
      match o with
      | None => Ok (b, inr errno)
      | Some (r, h, q) =>
          if negb (errno =? ENODATA) then Ok (b, inr errno)
          else
            '(h, codepoint) <- hangul_recomposer_terminate h ;;
            '(b, q) <- (if codepoint >=? 0 then charstr_encode_utf8_codepoint codepoint b (Some q) (Some output_end)
                        else Ok (b, Some q)) ;;
            match q with
            | None => Ok (b, inr EOVERFLOW)
            | Some q => if q =? output_end then Ok (b, inr EOVERFLOW) else b <- wr b q 0 ;; Ok (b, inl q)
            end
      end
  end.

(** * Quick checks *)

(** src/charstr_unicode.c:8-26 *)
Fixpoint detect_loop (fuel : nat) (s : list Z) (end_ : option Z) (disallowed_flag maybe_flag last_canonical_class result : Z)
  : res Z :=
  match fuel with
  | O => NoFuel
  | S fuel =>
      if at_end s end_ then Ok result
      else
        c <- cur s ;;
        if truth c then
          d <- charstr_decode_utf8_codepoint (Some s) end_ ;;
          match d with
          | None => Ok (-1)
          | Some (s, codepoint) =>
              let ccc := charstr_unicode_canonical_combining_class codepoint in
              if truth ccc && (last_canonical_class >? ccc) then Ok disallowed_flag
              else
                let check := charstr_allowed_unicode_normal_forms codepoint in
                if truth (Z.land check disallowed_flag) then Ok disallowed_flag
                else
                  detect_loop fuel s end_ disallowed_flag maybe_flag ccc
                    (if truth (Z.land check maybe_flag) then maybe_flag else result)
          end
        else Ok result
  end.

(** src/charstr_unicode.c:5-28 charstr_detect_unicode_normal_form; errno, which is
    EILSEQ when -1 is returned, is not represented. *)
Definition charstr_detect_unicode_normal_form (s : list Z) (end_ : option Z) (disallowed_flag maybe_flag : Z) : res Z :=
  detect_loop (S (length s)) s end_ disallowed_flag maybe_flag 0 0.

(** src/charstr_unicode.c:30-35 charstr_unicode_canonically_composed *)
Definition charstr_unicode_canonically_composed (s : list Z) (end_ : option Z) : res bool :=
  f <- charstr_detect_unicode_normal_form s end_ UNICODE_NFC_DISALLOWED UNICODE_NFC_MAYBE ;; Ok (f =? 0).

(** src/charstr_unicode.c:37-42 charstr_unicode_canonically_decomposed *)
Definition charstr_unicode_canonically_decomposed (s : list Z) (end_ : option Z) : res bool :=
  f <- charstr_detect_unicode_normal_form s end_ UNICODE_NFD_DISALLOWED UNICODE_NFD_MAYBE ;; Ok (f =? 0).
