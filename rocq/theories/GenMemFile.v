(** Proofs for GenMemModel.v: the whole file. *)
From Verif Require Import Base CMem Heap ListModel ListSpec ListProofs CharstrModel CharstrSpec CharstrProofs Utf8Model NormSpec.
From Verif Require Import IdnaTabModel IdnaTabSpec IdnaTabProofs IdnaTextModel IdnaTextSpec IdnaTextProofs OwnModel OwnSpec OwnProofs NewMemModel GenMemModel GenMemSpec GenMem.
From Coq Require Import Permutation.

(** ** Entries of the table *)
Lemma entry_pre pre x cp : 0 <= cp -> 3 * cp + 3 <= zlen pre -> entry_of (pre ++ x) cp = entry_of pre cp.
Proof.
  intros P L. unfold entry_of. rewrite skipn_app. rewrite firstn_app.
  replace (3 - length (skipn (Z.to_nat (3 * cp)) pre))%nat with 0%nat by (rewrite skipn_length; unfold zlen in L; lia).
  rewrite firstn_O, app_nil_r. reflexivity.
Qed.
Lemma entry_post pre x cp k : zlen pre = 3 * k -> k <= cp -> entry_of (pre ++ x) cp = entry_of x (cp - k).
Proof.
  intros L H. unfold entry_of. rewrite skipn_app. rewrite skipn_all2 by (unfold zlen in L; lia). cbn [app]. f_equal. f_equal. unfold zlen in L. lia.
Qed.
Lemma zero_range : forall count pre x cp, zlen pre = 3 * cp ->
  (forall k, cp <= k < cp + Z.of_nat count -> entry_of (pre ++ x) k = [0; 0; 0]) -> exists post, x = repeat 0 (3 * count) ++ post.
Proof.
  induction count as [|count IH]; intros pre x cp L H; [exists x; reflexivity|].
  pose proof (H cp ltac:(lia)) as E. rewrite (entry_post _ _ _ _ L) in E by lia. replace (cp - cp) with 0 in E by lia.
  unfold entry_of in E. cbn [Z.mul Z.to_nat skipn] in E. destruct x as [|a [|b [|c x]]]; try discriminate E. cbn [firstn] in E. injection E as -> -> ->.
  destruct (IH (pre ++ [0; 0; 0]) x (cp + 1)) as (post & ->).
  - rewrite zlen_app, L. change (zlen [0; 0; 0]) with 3. lia.
  - intros k Hk. rewrite <- app_assoc. apply H. lia.
  - exists post. replace (3 * S count)%nat with (S (S (S (3 * count)))) by lia. reflexivity.
Qed.
Lemma zero_split n t start count : zlen t = 3 * n -> 0 <= start -> start + Z.of_nat count <= n ->
  (forall k, start <= k < start + Z.of_nat count -> entry_of t k = [0; 0; 0]) ->
  exists pre post, zlen pre = 3 * start /\ t = pre ++ repeat 0 (3 * count) ++ post.
Proof.
  intros L P Q H. set (pre := firstn (Z.to_nat (3 * start)) t).
  assert (Lp : zlen pre = 3 * start) by (unfold pre, zlen; rewrite firstn_length; unfold zlen in L; lia).
  destruct (zero_range count pre (skipn (Z.to_nat (3 * start)) t) start Lp) as (post & E).
  - unfold pre. rewrite firstn_skipn. exact H.
  - exists pre, post. split; [exact Lp|]. rewrite <- E. unfold pre. symmetry. apply firstn_skipn.
Qed.
Lemma concat_three (P : list Z -> Prop) rows : (forall r, P r -> length r = 3%nat) -> Forall P rows -> zlen (concat rows) = 3 * zlen rows.
Proof.
  intros HP. induction 1 as [|r rows H _ IH]; [reflexivity|]. cbn [concat]. rewrite zlen_app, IH, zlen_cons. pose proof (HP _ H). unfold zlen at 1. lia.
Qed.
Lemma entry_in (P : list Z -> Prop) : (forall r, P r -> length r = 3%nat) -> forall rows post k, Forall P rows -> 0 <= k < zlen rows ->
  P (entry_of (concat rows ++ post) k).
Proof.
  intros HP. induction rows as [|r rows IH]; intros post k F Hk; [change (zlen (@nil (list Z))) with 0 in Hk; lia|].
  rewrite zlen_cons in Hk. cbn [concat]. rewrite <- app_assoc. pose proof (HP _ (Forall_inv F)) as L.
  destruct (Z.eq_dec k 0) as [->|].
  - destruct r as [|a [|b [|c [|d r]]]]; try discriminate L. exact (Forall_inv F).
  - rewrite (entry_post r _ _ 1) by (unfold zlen; lia). apply IH; [exact (Forall_inv_tail F)|lia].
Qed.
Lemma nonnull_app a b : nonnull (a ++ b) = nonnull a ++ nonnull b.
Proof. apply filter_app. Qed.
Lemma nonnull_zeros n : nonnull (repeat 0 n) = [].
Proof. induction n as [|n IH]; [reflexivity|exact IH]. Qed.

(** ** The file *)
Definition raw_covers (r : raw_row) (cp : Z) : Prop := let '(lo, hi, _, _) := r in lo <= cp <= hi.
Definition good_entry (ss : list (Z * list Z)) (s : list Z) (mb : option (list Z)) (e : list Z) : Prop := exists ib, good_row ss s mb ib e.

Lemma good_row_length ss s mb ib r : good_row ss s mb ib r -> length r = 3%nat.
Proof. intros (a & b & c & -> & _). reflexivity. Qed.
Lemma good_entry_incl ss ss' s mb e : incl ss ss' -> good_entry ss s mb e -> good_entry ss' s mb e.
Proof.
  intros I (ib & a & b & c & -> & A & B & C). exists ib, a, b, c. split; [reflexivity|]. split; [exact (points_incl _ _ _ _ I A)|].
  split; [exact (points_incl _ _ _ _ I B)|exact (points_incl _ _ _ _ I C)].
Qed.
Lemma getline_text : forall file l file', getline file = (l, file') -> file = l ++ file'.
Proof.
  induction file as [|c file IH]; intros l file' H; cbn [getline] in H; [injection H as <- <-; reflexivity|].
  destruct (c =? 10); [injection H as <- <-; reflexivity|]. destruct (getline file) as [l1 f1] eqn:E. injection H as <- <-.
  rewrite (IH _ _ eq_refl). reflexivity.
Qed.

Lemma file_ok others junk table dots buffer n os : zlen buffer = 100 -> In (OStr dots (as_block [46; 46])) os ->
  forall fuel file rows line ol t ss h,
  text file -> zlen file < 2 ^ 58 -> read_text junk fuel file = Ok rows ->
  Forall (fun r => let '(lo, hi, s, m) := r in 0 <= lo /\ hi < n /\ exists mb, mapping_bytes buffer m = Ok mb) rows ->
  ForallOrdPairs (fun r1 r2 => forall cp, raw_covers r1 cp -> ~ raw_covers r2 cp) rows ->
  zlen t = 3 * n -> (forall r cp, In r rows -> raw_covers r cp -> entry_of t cp = [0; 0; 0]) ->
  Permutation (map fst ss) (nonnull t) ->
  world others h (OStr table t :: strs ss ++ maybe line ol ++ os) -> (line = 0 <-> ol = None) ->
  exists h' t' ss', h_read_text junk fuel table dots buffer line file h = Ok (tt, h') /\
    world others h' (OStr table t' :: strs ss' ++ os) /\ zlen t' = 3 * n /\ Permutation (map fst ss') (nonnull t') /\ incl ss ss' /\
    (forall lo hi s m mb cp, In (lo, hi, s, m) rows -> lo <= cp <= hi -> mapping_bytes buffer m = Ok mb -> good_entry ss' s mb (entry_of t' cp)) /\
    (forall cp, 0 <= cp < n -> (forall r, In r rows -> ~ raw_covers r cp) -> entry_of t' cp = entry_of t cp).
Proof.
  intros LB ID. induction fuel as [|fuel IH]; intros file rows line ol t ss h TF LF R FR DR LT ZT PT W NL; cbn [read_text] in R; [discriminate|].
  cbn [h_read_text]. destruct (getline file) as [l file'] eqn:EG. pose proof (getline_text _ _ _ EG) as EF. subst file.
  assert (W0 : exists h1, free_or_null line h = Ok (tt, h1) /\ world others h1 (OStr table t :: strs ss ++ os)).
  { apply (w_free_null others h _ line ol); [|exact NL]. refine (world_perm _ _ _ _ _ W). perm. }
  destruct W0 as (h1 & E1 & W1). destruct l as [|c l].
  - injection R as <-. exists h1, t, ss. split; [exact E1|]. split; [exact W1|]. split; [exact LT|]. split; [exact PT|].
    split; [intros x Hx; exact Hx|]. split; [intros lo hi s m mb cp []|reflexivity].
  - set (l0 := c :: l) in *. rewrite (bnd_Ok _ _ _ _ _ E1). apply Forall_app in TF. destruct TF as (TL & TF'). rewrite zlen_app in LF.
    pose proof (zlen_nonneg l0). pose proof (zlen_nonneg file').
    assert (LF' : zlen file' < 2 ^ 58) by lia.
    destruct (w_new _ _ _ (as_block l0) W1) as (la & h2 & E2 & NA & W2). unfold new_string in E2. rewrite step_lift in E2.
    rewrite (bnd_Ok _ _ _ _ _ E2).
    destruct (read_line junk (l0 ++ [0])) as [o| | |] eqn:ER; cbn [bind] in R; try discriminate.
    destruct (read_text junk fuel file') as [rows'| | |] eqn:ET; cbn [bind] in R; try discriminate. injection R as R.
    apply (world_perm _ _ _ (OStr table t :: strs ss ++ (OStr la (as_block l0) :: os))) in W2; [|perm].
    assert (SL : short l0) by (split; [exact TL|lia]).
    pose proof (line_ok others junk table dots buffer h2 la l0 t ss (OStr la (as_block l0) :: os) o SL LB (or_introl eq_refl)
      (or_intror ID) ER W2) as LN.
    destruct o as [[[[lo hi] s] m]|].
    + subst rows. pose proof (Forall_inv FR) as (Plo & Phi & mb & EM). inversion DR as [|? ? D1 D2]; subst.
      assert (SPLIT : exists pre post, (lo <= hi -> zlen pre = 3 * lo) /\ t = pre ++ repeat 0 (3 * Z.to_nat (hi - lo + 1)) ++ post).
      { destruct (Z_le_gt_dec lo hi) as [Hle|Hgt].
        - destruct (zero_split n t lo (Z.to_nat (hi - lo + 1)) LT Plo ltac:(lia)) as (pre & post & A & B).
          + intros k Hk. apply (ZT (lo, hi, s, m)); [left; reflexivity|cbn; lia].
          + exists pre, post. auto.
        - exists [], t. split; [lia|]. replace (Z.to_nat (hi - lo + 1)) with 0%nat by lia. reflexivity. }
      destruct SPLIT as (pre & post & Kp & ET2).
      destruct (LN mb pre post EM Kp ET2) as (ib & h3 & ents & new & _ & E3 & L3 & G3 & P3 & W3). rewrite (bnd_Ok _ _ _ _ _ E3).
      set (t3 := pre ++ concat ents ++ post) in *.
      assert (LC : zlen (concat ents) = 3 * Z.of_nat (Z.to_nat (hi - lo + 1))).
      { rewrite (concat_three _ _ (good_row_length new s mb ib) G3). unfold zlen. rewrite L3. reflexivity. }
      assert (LR : zlen (repeat 0 (3 * Z.to_nat (hi - lo + 1))) = 3 * Z.of_nat (Z.to_nat (hi - lo + 1))) by (unfold zlen; rewrite repeat_length; lia).
      assert (LT3 : zlen t3 = 3 * n).
      { unfold t3. rewrite <- LT, ET2, !zlen_app, LC, LR. reflexivity. }
      assert (OUT : forall cp, 0 <= cp < n -> ~ lo <= cp <= hi -> entry_of t3 cp = entry_of t cp).
      { intros cp Hcp Hout. rewrite ET2. unfold t3. destruct (Z_le_gt_dec lo hi) as [Hle|Hgt].
        - destruct (Z_lt_ge_dec cp lo) as [Hlt|Hge].
          + rewrite !entry_pre; [reflexivity| | | |]; try lia; rewrite Kp by exact Hle; lia.
          + rewrite !app_assoc. rewrite (entry_post (pre ++ concat ents) post cp (hi + 1)), (entry_post (pre ++ repeat 0 _) post cp (hi + 1)); [reflexivity| | | |]; try lia;
              rewrite zlen_app, Kp by exact Hle; lia.
        - replace (Z.to_nat (hi - lo + 1)) with 0%nat in * by lia. destruct ents; [reflexivity|discriminate L3]. }
      assert (INN : forall cp, lo <= cp <= hi -> good_row new s mb ib (entry_of t3 cp)).
      { intros cp Hcp. unfold t3. rewrite (entry_post pre _ cp lo) by (try apply Kp; lia).
        apply (entry_in _ (good_row_length new s mb ib)); [exact G3|]. unfold zlen. rewrite L3. lia. }
      destruct (IH file' rows' la (Some (as_block l0)) t3 (new ++ ss) h3 TF' LF' ET (Forall_inv_tail FR) D2 LT3) as
        (h' & t' & ss' & E4 & W4 & L4 & P4 & I4 & A4 & B4).
      * intros r cp Ir Cr. assert (NC : ~ lo <= cp <= hi).
        { intros X. rewrite Forall_forall in D1. exact (D1 r Ir cp X Cr). }
        assert (RG : 0 <= cp < n).
        { pose proof (Forall_inv_tail FR) as FR'. rewrite Forall_forall in FR'. specialize (FR' r Ir). destruct r as [[[a b] x] y]. cbn in Cr. destruct FR' as (X & Y & _). lia. }
        rewrite (OUT cp RG NC). apply (ZT r); [right; exact Ir|exact Cr].
      * unfold t3. rewrite map_app, P3, PT, ET2, !nonnull_app, nonnull_zeros. cbn [app]. rewrite !app_assoc. apply Permutation_app_tail. apply Permutation_app_comm.
      * cbn [maybe app]. exact W3.
      * split; [intros X; congruence|discriminate].
      * exists h', t', ss'. split; [exact E4|]. split; [exact W4|]. split; [exact L4|]. split; [exact P4|].
        split; [intros x Hx; apply I4, in_or_app; right; exact Hx|]. split.
        -- intros a b s' m' mb' cp [X|X] Hcp M'.
           ++ injection X as -> -> -> ->. rewrite EM in M'. injection M' as <-. rewrite B4; [| |].
              ** apply (good_entry_incl new); [|exists ib; exact (INN cp Hcp)]. intros x Hx. apply I4, in_or_app. left; exact Hx.
              ** lia.
              ** intros r Ir Cr. rewrite Forall_forall in D1. exact (D1 r Ir cp Hcp Cr).
           ++ exact (A4 a b s' m' mb' cp X Hcp M').
        -- intros cp Hcp Hn. rewrite B4; [|exact Hcp|intros r Ir; apply Hn; right; exact Ir].
           apply OUT; [exact Hcp|]. exact (Hn _ (or_introl eq_refl)).
    + subst rows'. destruct LN as (h3 & E3 & W3). rewrite (bnd_Ok _ _ _ _ _ E3).
      destruct (IH file' rows la (Some (as_block l0)) t ss h3 TF' LF' ET FR DR LT ZT PT W3) as (h' & t' & ss' & E4 & R4).
      * split; [intros X; congruence|discriminate].
      * exists h', t', ss'. split; [exact E4|exact R4].
Qed.

(** ** The theorems *)
Lemma points_string others h os ss p o : world others h (os ++ strs ss) -> points ss p o -> string_or_null h p o.
Proof.
  intros W. destruct o as [s|]; cbn [points string_or_null]; [|auto]. intros (_ & I). apply (world_get _ _ _ _ _ W).
  apply in_or_app; right. apply in_map_iff. exists (p, as_block s). auto.
Qed.
Lemma feet_strs_fst ss : feet (strs ss) = map fst ss.
Proof. induction ss as [|[p b] ss IH]; [reflexivity|]. cbn. f_equal. exact IH. Qed.

(** The world at the start: the table and the strings that are read; the rest is that of others. *)
Lemma start_world h ss : NoDup (map fst ss) -> Forall (fun s => get h (fst s) = Some (CSlots (snd s))) ss ->
  world (fun x => if in_dec Z.eq_dec x (map fst ss) then None else get h x) h (strs ss).
Proof.
  intros ND F. split; [|split; [|split]]; rewrite ?feet_strs_fst.
  - exact ND.
  - clear ND. induction F as [|[p b] ss H _ IH]; constructor; assumption.
  - intros x Hx. destruct (in_dec Z.eq_dec x (map fst ss)); tauto.
  - intros x Hx. destruct (in_dec Z.eq_dec x (map fst ss)); tauto.
Qed.

(** What the world at the end says. *)
Lemma end_world h h' table t ss new t' : get h table = Some (CSlots t) -> NoDup (map fst ((table, t) :: ss)) ->
  Forall (fun s => get h (fst s) = Some (CSlots (snd s))) ss ->
  world (fun x => if in_dec Z.eq_dec x (map fst ((table, t) :: ss)) then None else get h x) h' (OStr table t' :: strs new ++ strs ss) ->
  only_new_entries h h' table (map fst new) /\ get h' table = Some (CSlots t') /\
  (forall p o, points new p o -> string_or_null h' p o).
Proof.
  intros G ND F W. pose proof W as (W1 & W2 & W3 & W4).
  change (feet (OStr table t' :: strs new ++ strs ss)) with (table :: feet (strs new ++ strs ss)) in W1, W3, W4.
  rewrite feet_app, !feet_strs_fst in W1, W3, W4. cbn [map fst] in *.
  inversion W1 as [|? ? NT W1']; subst. apply nodup_app_iff in W1'. destruct W1' as (NN & NS & AP).
  split; [|split].
  - split; [exact NN|]. split.
    + intros p Hp. assert (NG : get h' p <> None).
      { apply (world_alloc _ _ _ p W). change (In p (table :: feet (strs new ++ strs ss))). right. rewrite feet_app, !feet_strs_fst. apply in_or_app; left; exact Hp. }
      split; [intros ->; apply NG; reflexivity|].
      pose proof (W3 p (or_intror (in_or_app _ _ _ (or_introl Hp)))) as X.
      destruct (in_dec Z.eq_dec p (table :: map fst ss)) as [[<-|Y]|Y]; [|destruct (AP p Hp Y)|exact X].
      destruct NT. apply in_or_app; left; exact Hp.
    + intros x Hx. destruct (in_dec Z.eq_dec x (map fst ss)) as [Y|Y].
      * apply in_map_iff in Y. destruct Y as ([p b] & <- & Ip).
        rewrite Forall_forall in F. rewrite (F _ Ip). cbn [fst snd]. apply (world_get _ _ _ _ _ W). right. apply in_or_app; right.
        apply in_map_iff. exists (p, b). auto.
      * rewrite W4.
        -- destruct (in_dec Z.eq_dec x (table :: map fst ss)) as [[<-|Z]|_]; [destruct Hx; left; reflexivity|tauto|reflexivity].
        -- intros [<-|Z]; [apply Hx; left; reflexivity|]. apply in_app_or in Z. destruct Z as [Z|Z]; [apply Hx; right; exact Z|tauto].
  - apply (world_get _ _ _ _ _ W). left; reflexivity.
  - intros p o. eapply (points_string _ h' (OStr table t' :: strs ss)).
    refine (world_perm _ _ _ _ _ W). perm.
Qed.

(** One line. *)
Lemma line_memory junk h table dots la line buffer pre old post o :
  text line -> zlen line < 2 ^ 58 -> zlen buffer = 100 ->
  get h table = Some (CSlots (pre ++ old ++ post)) -> get h dots = Some (CSlots [46; 46; 0]) -> get h la = Some (CSlots (line ++ [0])) ->
  NoDup [table; dots; la] -> read_line junk (line ++ [0]) = Ok o ->
  match o with
  | None => exists h', h_line junk table dots buffer la h = Ok (tt, h') /\ same_memory h h'
  | Some (start, finish, s, m) => forall mb, mapping_bytes buffer m = Ok mb ->
      0 <= start -> zlen pre = 3 * start -> old = repeat 0 (3 * Z.to_nat (finish - start + 1)) ->
      exists ib h' rows, idna2008_of junk (line ++ [0]) = Ok ib /\
        h_line junk table dots buffer la h = Ok (tt, h') /\ zlen rows = Z.max 0 (finish - start + 1) /\
        get h' table = Some (CSlots (pre ++ concat rows ++ post)) /\
        only_new_entries h h' table (pointers (concat rows)) /\
        Forall (fun row => exists p1 p2 p3, row = [p1; p2; p3] /\
          string_or_null h' p1 (Some s) /\ string_or_null h' p2 mb /\ string_or_null h' p3 ib) rows
  end.
Proof.
  intros T L LB Gt Gd Gl ND R.
  set (st := [(dots, as_block [46; 46]); (la, as_block line)]).
  assert (NDs : NoDup (map fst ((table, pre ++ old ++ post) :: st))) by exact ND.
  assert (Fs : Forall (fun s => get h (fst s) = Some (CSlots (snd s))) st) by (repeat constructor; assumption).
  pose proof (start_world h ((table, pre ++ old ++ post) :: st) NDs (Forall_cons (table, pre ++ old ++ post) Gt Fs)) as W.
  set (oth := fun x => _) in W.
  assert (W0 : world oth h (OStr table (pre ++ old ++ post) :: strs [] ++ strs st)) by exact W.
  pose proof (line_ok oth junk table dots buffer h la line _ [] (strs st) o (conj T L) LB (or_intror (or_introl eq_refl)) (or_introl eq_refl) R W0) as LN.
  destruct o as [[[[start finish] s] m]|].
  - intros mb EM P K EO. destruct (LN mb pre post EM (fun _ => K) ltac:(rewrite EO; reflexivity)) as (ib & h' & rows & new & E1 & E2 & L2 & G2 & P2 & W2).
    rewrite app_nil_r in W2. destruct (end_world h h' table _ st new _ Gt NDs Fs W2) as (ON & GT & PS).
    exists ib, h', rows. split; [exact E1|]. split; [exact E2|]. split; [unfold zlen; lia|]. split; [exact GT|]. split.
    + destruct ON as (A & B & C). split; [exact (Permutation_NoDup P2 A)|]. split.
      * intros p Hp. apply B. exact (Permutation_in _ (Permutation_sym P2) Hp).
      * intros x Hx. apply C. intros [X|X]; apply Hx; [left; exact X|right; exact (Permutation_in _ P2 X)].
    + eapply Forall_impl; [|exact G2]. intros row (a & b & c & -> & A & B & C). exists a, b, c.
      split; [reflexivity|]. split; [exact (PS _ _ A)|]. split; [exact (PS _ _ B)|exact (PS _ _ C)].
  - destruct LN as (h' & E & W2). exists h'. split; [exact E|].
    destruct (end_world h h' table _ st [] _ Gt NDs Fs W2) as ((_ & _ & C) & GT & _).
    intros x. destruct (Z.eq_dec x table) as [->|N]; [congruence|]. apply C. intros [X|[]]; congruence.
Qed.

(** The whole file. *)
Lemma file_memory junk h table dots buffer n file rows :
  text file -> zlen file < 2 ^ 32 - 1 -> idna_text file rows -> zlen buffer = 100 -> 0 <= n -> rows_within n rows ->
  get h table = Some (CSlots (repeat 0 (3 * Z.to_nat n))) -> get h dots = Some (CSlots [46; 46; 0]) -> dots <> table ->
  exists h' t, h_read_text junk (S (length file)) table dots buffer 0 file h = Ok (tt, h') /\
    get h' table = Some (CSlots t) /\ zlen t = 3 * n /\ only_new_entries h h' table (pointers t) /\
    (forall cp st m, 0 <= cp < n -> says rows cp st m ->
       exists p1 p2 p3, entry_of t cp = [p1; p2; p3] /\ string_or_null h' p1 (Some (name_bytes st)) /\
         string_or_null h' p2 (option_map encoding m) /\ some_string h' p3) /\
    (forall cp, 0 <= cp < n -> (forall st m, ~ says rows cp st m) -> entry_of t cp = [0; 0; 0]).
Proof.
  intros T L IT LB Pn (RW1 & RW2) Gt Gd ND.
  set (st := [(dots, as_block [46; 46])]).
  assert (NDs : NoDup (map fst ((table, repeat 0 (3 * Z.to_nat n)) :: st))).
  { cbn. constructor; [intros [X|[]]; congruence|]. constructor; [intros []|constructor]. }
  assert (Fs : Forall (fun s => get h (fst s) = Some (CSlots (snd s))) st) by (repeat constructor; assumption).
  pose proof (start_world h ((table, repeat 0 (3 * Z.to_nat n)) :: st) NDs (Forall_cons (table, repeat 0 (3 * Z.to_nat n)) Gt Fs)) as W.
  set (oth := fun x => _) in W.
  assert (W0 : world oth h (OStr table (repeat 0 (3 * Z.to_nat n)) :: strs [] ++ maybe 0 None ++ strs st)) by exact W.
  pose proof (text_ok junk file rows IT T L (S (length file)) ltac:(lia)) as RT.
  assert (ZE : forall cp, 0 <= cp < n -> entry_of (repeat 0 (3 * Z.to_nat n)) cp = [0; 0; 0]).
  { intros cp Hcp. unfold entry_of. replace (3 * Z.to_nat n)%nat with (Z.to_nat (3 * cp) + (3 + (3 * Z.to_nat n - Z.to_nat (3 * cp) - 3)))%nat by lia.
    rewrite repeat_app, skipn_app, repeat_length, Nat.sub_diag. rewrite skipn_all2 by (rewrite repeat_length; lia). reflexivity. }
  assert (RG : forall r cp, In r rows -> covers r cp -> 0 <= cp < n).
  { intros r cp Ir Cr. rewrite Forall_forall in RW1. specialize (RW1 r Ir). destruct r as [[[lo hi] x] y]. cbn in Cr. destruct RW1 as (A & B & _). lia. }
  assert (MB : forall lo hi x m, In (lo, hi, x, m) rows -> mapping_bytes buffer m = Ok (option_map encoding m)).
  { intros lo hi x m I. apply mapping_bytes_ok; [exact LB|]. rewrite Forall_forall in RW1. exact (proj2 (proj2 (RW1 _ I))). }
  destruct (file_ok oth junk table dots buffer n (strs st) LB (or_introl eq_refl) (S (length file)) file (map raw rows) 0 None
    (repeat 0 (3 * Z.to_nat n)) [] h T ltac:(lia) RT) as (h' & t' & ss' & E & W' & LT & PT & _ & A & B).
  - rewrite Forall_forall. intros r Ir. apply in_map_iff in Ir. destruct Ir as ([[[lo hi] x] m] & <- & Ir). cbn [raw].
    pose proof RW1 as F. rewrite Forall_forall in F. destruct (F _ Ir) as (X & Y & _). split; [exact X|]. split; [exact Y|].
    exists (option_map encoding m). exact (MB _ _ _ _ Ir).
  - clear - RW2. induction RW2 as [|[[[lo hi] x] m] rows D _ IH]; cbn [map]; constructor; [|exact IH].
    rewrite Forall_forall in D |- *. intros r Ir. apply in_map_iff in Ir. destruct Ir as ([[[lo' hi'] x'] m'] & <- & Ir). exact (D _ Ir).
  - unfold zlen. rewrite repeat_length. lia.
  - intros r cp Ir Cr. apply in_map_iff in Ir. destruct Ir as ([[[lo hi] x] m] & <- & Ir). apply ZE. exact (RG _ _ Ir Cr).
  - rewrite nonnull_zeros. constructor.
  - exact W0.
  - tauto.
  - destruct (end_world h h' table _ st ss' _ Gt NDs Fs W') as (ON & GT & PS).
    exists h', t'. split; [exact E|]. split; [exact GT|]. split; [exact LT|]. split; [|split].
    + destruct ON as (X & Y & Z). split; [exact (Permutation_NoDup PT X)|]. split.
      * intros p Hp. apply Y. exact (Permutation_in _ (Permutation_sym PT) Hp).
      * intros x Hx. apply Z. intros [X1|X1]; apply Hx; [left; exact X1|right; exact (Permutation_in _ PT X1)].
    + intros cp sx m Hcp (lo & hi & Ir & Hr).
      destruct (A lo hi (name_bytes sx) m (option_map encoding m) cp) as (ib & a & b & c & EE & X & Y & Z).
      * apply in_map_iff. exists (lo, hi, sx, m). auto.
      * exact Hr.
      * exact (MB _ _ _ _ Ir).
      * exists a, b, c. split; [exact EE|]. split; [exact (PS _ _ X)|]. split; [exact (PS _ _ Y)|exists ib; exact (PS _ _ Z)].
    + intros cp Hcp Hn. rewrite B; [exact (ZE cp Hcp)|exact Hcp|]. intros r Ir Cr. apply in_map_iff in Ir.
      destruct Ir as ([[[lo hi] x] m] & <- & Ir). apply (Hn x m). exists lo, hi. auto.
Qed.
