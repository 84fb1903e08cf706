(** URL encoder objects on the heap: proofs. *)
From Verif Require Import Base CMem Heap ListModel ListSpec ListProofs CharstrTables CharstrModel CharstrSpec CharstrProofs UrlModel UrlSpec UrlProofs OwnModel OwnSpec OwnProofs.
From Verif Require Import UrlHeapModel UrlHeapSpec.
From Coq Require Import ZifyBool ZifyNat.

(** ** Bytes of a block *)
Lemma ld_byte_ok h a pre x post i : get h a = Some (CSlots (pre ++ x :: post)) -> i = zlen pre -> ld_byte a i h = Ok (x, h).
Proof.
  intros G E. unfold ld_byte. unfold bnd, ld_slots. rewrite G. unfold lift. rewrite rd_app by exact E. reflexivity.
Qed.
Lemma st_byte_ok h a pre x post i v : get h a = Some (CSlots (pre ++ x :: post)) -> i = zlen pre ->
  exists h', st_byte a i v h = Ok (tt, h') /\ get h' a = Some (CSlots (pre ++ v :: post)) /\ same_outside [a] h h'.
Proof.
  intros G E. pose proof (get_nonnull _ _ _ G) as N. unfold st_byte. erewrite bnd_Ok by (unfold ld_slots; rewrite G; reflexivity).
  erewrite bnd_Ok by (unfold lift; rewrite wr_app by exact E; reflexivity).
  unfold st_slots. rewrite G. eexists. split; [reflexivity|]. split; [rewrite get_put by exact N; rewrite Z.eqb_refl; reflexivity|].
  intros y Hy. rewrite get_put by exact N. destruct (Z.eqb_spec y a); [|reflexivity]. subst y. destruct Hy; left; reflexivity.
Qed.
Lemma block_fuel_ok h a c : get h a = Some (CSlots c) -> block_fuel a h = Ok (S (length c), h).
Proof. intros G. unfold block_fuel. erewrite bnd_Ok by (unfold ld_slots; rewrite G; reflexivity). reflexivity. Qed.

(** ** Tables *)
Definition has (T : list Z) (i : nat) (s : list Z) : Prop :=
  forall k x, nth_error (s ++ [0]) k = Some x -> nth_error T (i + k) = Some x.
Lemma has_split : forall i T s, has T i s -> exists rest, T = firstn i T ++ s ++ 0 :: rest.
Proof.
  induction i as [|i IH]; intros T s H.
  - cbn [firstn app]. revert T H. induction s as [|c s IHs]; intros T H.
    + specialize (H 0%nat 0 eq_refl). destruct T as [|x T]; [discriminate|]. injection H as ->. exists T. reflexivity.
    + pose proof (H 0%nat c eq_refl) as H0. destruct T as [|x T]; [discriminate|]. injection H0 as ->.
      destruct (IHs T) as (rest & E). { intros k y Hk. exact (H (S k) y Hk). }
      exists rest. cbn [app]. rewrite E at 1. reflexivity.
  - destruct T as [|x T].
    { specialize (H (length s) 0). rewrite nth_error_app2, Nat.sub_diag in H by lia. specialize (H eq_refl). destruct (S i + length s)%nat; discriminate. }
    destruct (IH T s) as (rest & E). { intros k y Hk. exact (H k y Hk). }
    exists rest. cbn [firstn app]. rewrite E at 1. reflexivity.
Qed.
Lemma nth_error_skip {A} (l : list A) n k : nth_error (skipn n l) k = nth_error l (n + k).
Proof. revert l. induction n as [|n IH]; intros [|x l]; cbn [skipn Nat.add nth_error]; auto. destruct k; reflexivity. Qed.
Lemma nth_error_first {A} (l : list A) n k : (k < n)%nat -> nth_error (firstn n l) k = nth_error l k.
Proof.
  revert l k. induction n as [|n IH]; intros l k H; [lia|]. destruct l as [|x l]; [destruct k; reflexivity|].
  destruct k; [reflexivity|]. cbn [firstn nth_error]. apply IH. lia.
Qed.
Lemma blit_has T i d T' : blit T (Z.of_nat i) d = Ok T' -> zlen T' = zlen T /\
  (forall j, (j < i)%nat -> nth_error T' j = nth_error T j) /\
  (forall j, (i <= j < i + length d)%nat -> nth_error T' j = nth_error d (j - i)) /\
  (forall j, (i + length d <= j)%nat -> nth_error T' j = nth_error T j).
Proof.
  unfold blit. destruct ((0 <=? Z.of_nat i) && (Z.of_nat i + zlen d <=? zlen T)) eqn:C; [|discriminate]. intros E.
  injection E as <-. assert (B : (i + length d <= length T)%nat) by (unfold zlen in C; lia).
  replace (Z.to_nat (Z.of_nat i + zlen d)) with (i + length d)%nat by (unfold zlen; lia). rewrite Nat2Z.id.
  assert (L : length (firstn i T) = i) by (rewrite firstn_length; lia).
  split; [|split; [|split]].
  - unfold zlen. rewrite !app_length, skipn_length, L. lia.
  - intros j Hj. rewrite nth_error_app1 by lia. apply nth_error_first. exact Hj.
  - intros j Hj. rewrite nth_error_app2 by lia. rewrite L. apply nth_error_app1. lia.
  - intros j Hj. rewrite nth_error_app2 by lia. rewrite L. rewrite nth_error_app2 by lia. rewrite nth_error_skip. f_equal. lia.
Qed.

Definition good_code (f : Z -> list Z) : Prop :=
  forall c, 0 <= c < 256 -> text (f c) /\ (length (f c) <= 3)%nat.
(** Block [T] is a table with the codes [f]. *)
Definition tbl (f : Z -> list Z) (T : list Z) : Prop :=
  zlen T = 1024 /\ forall c, 0 <= c < 256 -> has T (Z.to_nat (4 * c)) (f c).
Lemma tbl_ext f g T : (forall c, 0 <= c < 256 -> f c = g c) -> tbl f T -> tbl g T.
Proof. intros E (L & H). split; [exact L|]. intros c Hc. rewrite <- E by exact Hc. auto. Qed.

Lemma tbl_blit f T c s : tbl f T -> (forall d, 0 <= d < 256 -> (length (f d) <= 3)%nat) -> 0 <= c < 256 -> (length s <= 3)%nat ->
  exists T', blit T (4 * c) (s ++ [0]) = Ok T' /\ tbl (fun d => if d =? c then s else f d) T'.
Proof.
  intros (L & H) Hf Hc Hs. assert (B : exists T', blit T (4 * c) (s ++ [0]) = Ok T').
  { unfold blit. replace ((0 <=? 4 * c) && (4 * c + zlen (s ++ [0]) <=? zlen T)) with true; [eauto|].
    rewrite zlen_snoc, L. unfold zlen. lia. }
  destruct B as (T' & E). exists T'. split; [exact E|].
  rewrite <- (Z2Nat.id (4 * c)) in E by lia. apply blit_has in E. destruct E as (L' & E1 & E2 & E3).
  rewrite app_length in E2, E3. cbn [length] in E2, E3.
  split; [lia|]. intros d Hd k x Hk. assert (Kl : (k < length ((if (d =? c)%Z then s else f d) ++ [0%Z]))%nat) by (apply nth_error_Some; congruence).
  rewrite app_length in Kl. cbn [length] in Kl. destruct (Z.eqb_spec d c) as [->|N].
  - rewrite E2 by lia. rewrite <- Hk. f_equal. lia.
  - specialize (Hf d Hd). destruct (Z.ltb_spec d c) as [Lt|Ge].
    + rewrite E1 by lia. apply (H d Hd). exact Hk.
    + rewrite E3 by lia. apply (H d Hd). exact Hk.
Qed.

Lemma snprintf_ok h e f T c s : get h e = Some (CSlots T) -> tbl f T -> good_code f -> 0 <= c < 256 -> (length s <= 3)%nat ->
  exists h' T', h_snprintf e (entry_offset c) sizeof_entry s h = Ok (tt, h') /\ get h' e = Some (CSlots T') /\
    tbl (fun d => if d =? c then s else f d) T' /\ same_outside [e] h h'.
Proof.
  intros G Ht Hf Hc Hs. pose proof (get_nonnull _ _ _ G) as N. destruct (tbl_blit f T c s Ht) as (T' & E & Ht'); auto.
  { intros d Hd. apply Hf. exact Hd. }
  unfold h_snprintf. erewrite bnd_Ok by (unfold ld_slots; rewrite G; reflexivity).
  change (Z.to_nat (sizeof_entry - 1)) with 3%nat. rewrite firstn_all2 by exact Hs. unfold entry_offset. change sizeof_entry with 4.
  erewrite bnd_Ok by (unfold lift; rewrite E; reflexivity). unfold st_slots. rewrite G. eexists. exists T'. split; [reflexivity|].
  split; [rewrite get_put by exact N; rewrite Z.eqb_refl; reflexivity|]. split; [exact Ht'|].
  intros y Hy. rewrite get_put by exact N. destruct (Z.eqb_spec y e); [|reflexivity]. subst y. destruct Hy; left; reflexivity.
Qed.

Lemma percent_good c : 0 <= c < 256 -> text (percent c) /\ (length (percent c) <= 3)%nat.
Proof.
  intros Hc. rewrite percent_ok by exact Hc. split; [|cbn; lia]. unfold percent_encoding. pose proof (Z.mod_pos_bound c 16 ltac:(lia)).
  apply Forall_cons; [lia|]. apply Forall_cons; [apply text_upper_hex; lia|]. apply Forall_cons; [apply text_upper_hex; lia|constructor].
Qed.

Lemma reserve_heap_ok a e : a <> e -> forall s pre rest fuel h f T,
  get h a = Some (CSlots (pre ++ s ++ 0 :: rest)) -> text s -> (length s < fuel)%nat ->
  get h e = Some (CSlots T) -> tbl f T -> good_code f ->
  exists h' T', h_reserve_loop fuel e a (zlen pre) h = Ok (tt, h') /\ get h' e = Some (CSlots T') /\
    tbl (fun d => if existsb (Z.eqb d) s then percent_encoding d else f d) T' /\
    good_code (fun d => if existsb (Z.eqb d) s then percent_encoding d else f d) /\ same_outside [e] h h'.
Proof.
  intros Nae. induction s as [|c s IH]; intros pre rest [|fuel] h f T Ga Hs Hfu Ge Ht Hf; try (cbn [length] in Hfu; lia); cbn [h_reserve_loop].
  - erewrite bnd_Ok by (eapply ld_byte_ok; [exact Ga|reflexivity]). change (truth 0) with false. cbn iota.
    exists h, T. split; [reflexivity|]. split; [exact Ge|]. split; [exact Ht|]. split; [exact Hf|]. intros x _. reflexivity.
  - apply text_cons in Hs. destruct Hs as [Hc Hs]. cbn [app] in Ga. cbn [length] in Hfu.
    erewrite bnd_Ok by (eapply ld_byte_ok; [exact Ga|reflexivity]). rewrite truth_pos by exact Hc. cbn iota.
    rewrite u8_small by (change (2 ^ 8) with 256; lia).
    destruct (percent_good c ltac:(lia)) as (Tc & Lc).
    destruct (snprintf_ok h e f T c (percent c) Ge Ht Hf ltac:(lia) Lc) as (h1 & T1 & E1 & G1 & Ht1 & S1).
    rewrite (bnd_Ok _ _ _ _ _ E1).
    assert (Ga1 : get h1 a = Some (CSlots ((pre ++ [c]) ++ s ++ 0 :: rest))).
    { rewrite S1 by (intros [X|[]]; congruence). rewrite Ga. rewrite <- app_assoc. reflexivity. }
    replace (zlen pre + 1) with (zlen (pre ++ [c])) by (rewrite zlen_snoc; lia).
    assert (Hf1 : good_code (fun d => if d =? c then percent c else f d)).
    { intros d Hd. destruct (d =? c); [split; assumption|apply Hf, Hd]. }
    destruct (IH (pre ++ [c]) rest fuel h1 _ T1 Ga1 Hs ltac:(lia) G1 Ht1 Hf1) as (h2 & T2 & E2 & G2 & Ht2 & Hf2 & S2).
    assert (X : forall d, 0 <= d < 256 -> (if existsb (Z.eqb d) s then percent_encoding d else if d =? c then percent c else f d) =
      (if existsb (Z.eqb d) (c :: s) then percent_encoding d else f d)).
    { intros d Hd. cbn [existsb]. destruct (Z.eqb_spec d c) as [->|_]; cbn [orb]; [|reflexivity].
      rewrite percent_ok by lia. destruct (existsb _ s); reflexivity. }
    exists h2, T2. split; [exact E2|]. split; [exact G2|]. split; [exact (tbl_ext _ _ _ X Ht2)|]. split.
    + intros d Hd. rewrite <- (X d Hd). apply Hf2, Hd.
    + intros x Hx. rewrite S2, S1 by exact Hx. reflexivity.
Qed.

Lemma unreserve_heap_ok a e : a <> e -> forall s pre rest fuel h f T,
  get h a = Some (CSlots (pre ++ s ++ 0 :: rest)) -> text s -> (length s < fuel)%nat ->
  get h e = Some (CSlots T) -> tbl f T -> good_code f ->
  exists h' T', h_unreserve_loop fuel e a (zlen pre) h = Ok (tt, h') /\ get h' e = Some (CSlots T') /\
    tbl (fun d => if existsb (Z.eqb d) s then [d] else f d) T' /\
    good_code (fun d => if existsb (Z.eqb d) s then [d] else f d) /\ same_outside [e] h h'.
Proof.
  intros Nae. induction s as [|c s IH]; intros pre rest [|fuel] h f T Ga Hs Hfu Ge Ht Hf; try (cbn [length] in Hfu; lia); cbn [h_unreserve_loop].
  - erewrite bnd_Ok by (eapply ld_byte_ok; [exact Ga|reflexivity]). change (truth 0) with false. cbn iota.
    exists h, T. split; [reflexivity|]. split; [exact Ge|]. split; [exact Ht|]. split; [exact Hf|]. intros x _. reflexivity.
  - apply text_cons in Hs. destruct Hs as [Hc Hs]. cbn [app] in Ga. cbn [length] in Hfu.
    erewrite bnd_Ok by (eapply ld_byte_ok; [exact Ga|reflexivity]). rewrite truth_pos by exact Hc. cbn iota.
    rewrite u8_small by (change (2 ^ 8) with 256; lia).
    assert (Tc : text [c]) by (repeat constructor; lia). assert (Lc : (length [c] <= 3)%nat) by (cbn; lia).
    destruct (snprintf_ok h e f T c [c] Ge Ht Hf ltac:(lia) Lc) as (h1 & T1 & E1 & G1 & Ht1 & S1).
    rewrite (bnd_Ok _ _ _ _ _ E1).
    assert (Ga1 : get h1 a = Some (CSlots ((pre ++ [c]) ++ s ++ 0 :: rest))).
    { rewrite S1 by (intros [X|[]]; congruence). rewrite Ga. rewrite <- app_assoc. reflexivity. }
    replace (zlen pre + 1) with (zlen (pre ++ [c])) by (rewrite zlen_snoc; lia).
    assert (Hf1 : good_code (fun d => if d =? c then [c] else f d)).
    { intros d Hd. destruct (d =? c); [split; assumption|apply Hf, Hd]. }
    destruct (IH (pre ++ [c]) rest fuel h1 _ T1 Ga1 Hs ltac:(lia) G1 Ht1 Hf1) as (h2 & T2 & E2 & G2 & Ht2 & Hf2 & S2).
    assert (X : forall d, 0 <= d < 256 -> (if existsb (Z.eqb d) s then [d] else if d =? c then [c] else f d) =
      (if existsb (Z.eqb d) (c :: s) then [d] else f d)).
    { intros d Hd. cbn [existsb]. destruct (Z.eqb_spec d c) as [->|_]; cbn [orb]; [|reflexivity].
      destruct (existsb _ s); reflexivity. }
    exists h2, T2. split; [exact E2|]. split; [exact G2|]. split; [exact (tbl_ext _ _ _ X Ht2)|]. split.
    + intros d Hd. rewrite <- (X d Hd). apply Hf2, Hd.
    + intros x Hx. rewrite S2, S1 by exact Hx. reflexivity.
Qed.

(** ** The static encoder *)
Definition starts (T s : list Z) : bool := if list_eq_dec Z.eq_dec (firstn (S (length s)) T) (s ++ [0]) then true else false.
Definition tame (s : list Z) : bool := forallb (fun x => (0 <? x) && (x <? 256)) s && (if nth 0 s 0 =? 37 then zlen s =? 3 else zlen s =? 1).
Lemma static_has c : 0 <= c < 256 -> starts (skipn (Z.to_nat (4 * c)) static_bytes) (standard_code c) = true.
Proof. revert c. apply all_bytes. vm_compute. reflexivity. Qed.
Lemma standard_tame c : 0 <= c < 256 -> tame (standard_code c) = true.
Proof. revert c. apply all_bytes. vm_compute. reflexivity. Qed.
Lemma static_tbl : tbl standard_code static_bytes.
Proof.
  split; [reflexivity|]. intros c Hc k x Hk. pose proof (static_has c Hc) as SH. unfold starts in SH.
  destruct (list_eq_dec Z.eq_dec _ _) as [E|]; [|discriminate]. rewrite <- nth_error_skip.
  assert (Kl : (k < length (standard_code c ++ [0%Z]))%nat) by (apply nth_error_Some; congruence).
  rewrite app_length in Kl. cbn [length] in Kl. rewrite <- (nth_error_first _ (S (length (standard_code c)))) by lia. rewrite E. exact Hk.
Qed.
Lemma tame_text s : tame s = true -> text s /\ (length s <= 3)%nat.
Proof.
  unfold tame. rewrite andb_true_iff. intros (H & L). split.
  - rewrite forallb_forall in H. apply Forall_forall. intros x Hx. specialize (H x Hx). lia.
  - unfold zlen in L. destruct (_ =? 37); lia.
Qed.
Lemma standard_good : good_code standard_code.
Proof. intros c Hc. apply tame_text, standard_tame, Hc. Qed.

(** ** Making an encoder *)
Lemma create_heap_ok junk static h a i r b j u :
  get h static = Some (CSlots static_bytes) -> string_at h a i r -> string_at h b j u ->
  exists e h' T, h_create_url_encoder junk static a i b j h = Ok (e, h') /\ one_new_block h h' e T /\
    tbl (custom_code r u) T /\ good_code (custom_code r u).
Proof.
  intros Gs (pa & ra & Ga & <- & Hr) (pb & rb & Gb & <- & Hu). unfold h_create_url_encoder.
  destruct (alloc_spec (CSlots (fresh_block junk sizeof_encoder)) h) as (e & h1 & E1 & Ne & Fe & G1).
  rewrite (bnd_Ok _ _ _ _ _ E1).
  assert (Nse : static <> e) by congruence. assert (Nae : a <> e) by congruence. assert (Nbe : b <> e) by congruence.
  assert (O1 : forall x, x <> e -> get h1 x = get h x). { intros x Hx. rewrite G1. replace (x =? e) with false by lia. reflexivity. }
  assert (Ge1 : get h1 e = Some (CSlots (fresh_block junk sizeof_encoder))). { rewrite G1, Z.eqb_refl. reflexivity. }
  erewrite bnd_Ok by (unfold ld_slots; rewrite O1 by exact Nse; rewrite Gs; reflexivity).
  erewrite bnd_Ok by (unfold ld_slots; rewrite Ge1; reflexivity).
  assert (B : blit (fresh_block junk sizeof_encoder) 0 (firstn (Z.to_nat sizeof_encoder) static_bytes) = Ok static_bytes).
  { pose proof static_tbl as (L & _). rewrite firstn_all2 by (unfold zlen in L; change (Z.to_nat sizeof_encoder) with (Z.to_nat 1024); lia).
    pose proof (blit_app [] (fresh_block junk sizeof_encoder) [] static_bytes 0 eq_refl) as X. cbn [app] in X. rewrite !app_nil_r in X. apply X.
    rewrite fresh_block_zlen by (unfold sizeof_encoder; lia). exact (eq_sym L). }
  erewrite bnd_Ok by (unfold lift; rewrite B; reflexivity).
  set (h2 := put_cell h1 e (CSlots static_bytes)).
  assert (E2 : st_slots e static_bytes h1 = Ok (tt, h2)) by (unfold st_slots; rewrite Ge1; reflexivity).
  rewrite (bnd_Ok _ _ _ _ _ E2).
  assert (Ge2 : get h2 e = Some (CSlots static_bytes)) by (unfold h2; rewrite get_put by exact Ne; rewrite Z.eqb_refl; reflexivity).
  assert (O2 : forall x, x <> e -> get h2 x = get h x).
  { intros x Hx. unfold h2. rewrite get_put by exact Ne. replace (x =? e) with false by lia. auto. }
  rewrite <- (O2 a Nae) in Ga. rewrite <- (O2 b Nbe) in Gb. rewrite (bnd_Ok _ _ _ _ _ (block_fuel_ok _ _ _ Ga)).
  destruct (reserve_heap_ok a e Nae r pa ra (S (length (pa ++ r ++ 0 :: ra))) h2 standard_code static_bytes Ga Hr) as (h3 & T3 & E3 & G3 & Ht3 & Hf3 & S3).
  { rewrite !app_length. lia. } { exact Ge2. } { exact static_tbl. } { exact standard_good. }
  rewrite (bnd_Ok _ _ _ _ _ E3).
  assert (Gb3 : get h3 b = Some (CSlots (pb ++ u ++ 0 :: rb))). { rewrite S3 by (intros [X|[]]; congruence). exact Gb. }
  rewrite (bnd_Ok _ _ _ _ _ (block_fuel_ok _ _ _ Gb3)).
  destruct (unreserve_heap_ok b e Nbe u pb rb (S (length (pb ++ u ++ 0 :: rb))) h3 _ T3 Gb3 Hu ltac:(rewrite !app_length; lia) G3 Ht3 Hf3) as (h4 & T4 & E4 & G4 & Ht4 & Hf4 & S4).
  rewrite (bnd_Ok _ _ _ _ _ E4). exists e, h4, T4. split; [reflexivity|]. split.
  - split; [exact Ne|]. split; [exact Fe|]. split; [exact G4|]. intros x Hx. rewrite S4, S3 by exact Hx. apply O2. intros ->. apply Hx. left; reflexivity.
  - split; [exact Ht4|exact Hf4].
Qed.

(** ** Encoding *)
Definition width (f : Z -> list Z) (c : Z) : Z := if nth 0 (f c) 0 =? 37 then 3 else 1.
Definition wide_code (f : Z -> list Z) : Prop :=
  forall c, 0 < c < 256 -> text (f c) /\ 1 <= zlen (f c) <= width f c /\ width f c <= 3.

Lemma tbl_entry f T c : tbl f T -> 0 <= c < 256 -> exists pre rest, T = pre ++ f c ++ 0 :: rest /\ zlen pre = entry_offset c.
Proof.
  intros (L & H) Hc. destruct (has_split _ _ _ (H c Hc)) as (rest & E). exists (firstn (Z.to_nat (4 * c)) T), rest. split; [exact E|].
  unfold entry_offset, sizeof_entry. unfold zlen in *. rewrite firstn_length. lia.
Qed.

Lemma width_heap_ok h e f T c : get h e = Some (CSlots T) -> tbl f T -> 0 < c < 256 -> h_url_encoding_width e c h = Ok (width f c, h).
Proof.
  intros G Ht Hc. destruct (tbl_entry f T c Ht ltac:(lia)) as (pre & rest & E & L). unfold h_url_encoding_width, h_url_custom_encode_byte.
  rewrite u8_small by (change (2 ^ 8) with 256; lia). rewrite <- L. rewrite E in G. unfold width.
  destruct (f c) as [|x s] eqn:Ef; cbn [app nth] in *; erewrite bnd_Ok by (eapply ld_byte_ok; [exact G|reflexivity]); reflexivity.
Qed.

Lemma length_heap_ok a e f T : wide_code f -> tbl f T -> forall s pre rest fuel h n,
  get h a = Some (CSlots (pre ++ s ++ 0 :: rest)) -> get h e = Some (CSlots T) -> text s -> (length s < fuel)%nat ->
  0 <= n -> n + 3 * zlen s < 2 ^ 64 ->
  h_encoded_length fuel e a (zlen pre) n h = Ok (n + fold_right Z.add 0 (map (width f) s), h).
Proof.
  intros Hf Ht. induction s as [|c s IH]; intros pre rest [|fuel] h n Ga Ge Hs Hfu Hn Hl; try (cbn [length] in Hfu; lia); cbn [h_encoded_length].
  - erewrite bnd_Ok by (eapply ld_byte_ok; [exact Ga|reflexivity]). change (truth 0) with false. cbn iota. cbn [map fold_right]. rewrite Z.add_0_r. reflexivity.
  - apply text_cons in Hs. destruct Hs as [Hc Hs]. cbn [app] in Ga. cbn [length] in Hfu. rewrite zlen_cons in Hl. pose proof (zlen_nonneg s) as P.
    erewrite bnd_Ok by (eapply ld_byte_ok; [exact Ga|reflexivity]). rewrite truth_pos by exact Hc. cbn iota.
    rewrite (bnd_Ok _ _ _ _ _ (width_heap_ok h e f T c Ge Ht Hc)). destruct (Hf c Hc) as (_ & W1 & W2). rewrite u64_small by lia.
    replace (zlen pre + 1) with (zlen (pre ++ [c])) by (rewrite zlen_snoc; lia).
    rewrite (IH (pre ++ [c]) rest fuel h (n + width f c)); try assumption; try lia.
    + cbn [map fold_right]. rewrite Z.add_assoc. reflexivity.
    + rewrite <- app_assoc. exact Ga.
Qed.

Lemma put_heap_ok u e : u <> e -> forall s pu ru fuel h pre old post,
  get h u = Some (CSlots (pu ++ s ++ 0 :: ru)) -> get h e = Some (CSlots (pre ++ old ++ post)) -> zlen old = zlen s ->
  text s -> (length s < fuel)%nat ->
  exists h', h_put_string fuel u (zlen pu) e (zlen pre) h = Ok (zlen pre + zlen s, h') /\
    get h' e = Some (CSlots (pre ++ s ++ post)) /\ same_outside [e] h h'.
Proof.
  intros Nue. induction s as [|c s IH]; intros pu ru [|fuel] h pre old post Gu Ge Hl Hs Hfu; try (cbn [length] in Hfu; lia); cbn [h_put_string].
  - erewrite bnd_Ok by (eapply ld_byte_ok; [exact Gu|reflexivity]). change (truth 0) with false. cbn iota. apply zlen_0_nil in Hl. subst old.
    exists h. change (zlen (@nil Z)) with 0. rewrite Z.add_0_r. split; [reflexivity|]. split; [exact Ge|]. intros x _. reflexivity.
  - apply text_cons in Hs. destruct Hs as [Hc Hs]. cbn [app] in Gu. cbn [length] in Hfu. rewrite zlen_cons in Hl.
    destruct old as [|x old]; [change (zlen (@nil Z)) with 0 in Hl; pose proof (zlen_nonneg s); lia|]. rewrite zlen_cons in Hl. cbn [app] in Ge.
    erewrite bnd_Ok by (eapply ld_byte_ok; [exact Gu|reflexivity]). rewrite truth_pos by exact Hc. cbn iota.
    destruct (st_byte_ok h e pre x (old ++ post) (zlen pre) c Ge eq_refl) as (h1 & E1 & G1 & S1). rewrite (bnd_Ok _ _ _ _ _ E1).
    assert (Gu1 : get h1 u = Some (CSlots ((pu ++ [c]) ++ s ++ 0 :: ru))). { rewrite S1 by (intros [X|[]]; congruence). rewrite Gu, <- app_assoc. reflexivity. }
    assert (Ge1 : get h1 e = Some (CSlots ((pre ++ [c]) ++ old ++ post))). { rewrite G1, <- app_assoc. reflexivity. }
    replace (zlen pu + 1) with (zlen (pu ++ [c])) by (rewrite zlen_snoc; lia).
    replace (zlen pre + 1) with (zlen (pre ++ [c])) by (rewrite zlen_snoc; lia).
    destruct (IH (pu ++ [c]) ru fuel h1 (pre ++ [c]) old post Gu1 Ge1 ltac:(lia) Hs ltac:(lia)) as (h2 & E2 & G2 & S2).
    exists h2. split.
    + rewrite E2. rewrite zlen_snoc, zlen_cons. do 2 f_equal. lia.
    + split; [rewrite G2, <- app_assoc; reflexivity|]. intros y Hy. rewrite S2, S1 by exact Hy. reflexivity.
Qed.

Lemma encode_heap_ok a e p f T : a <> p -> e <> p -> wide_code f -> tbl f T -> forall s pa ra fuel h pre old,
  get h a = Some (CSlots (pa ++ s ++ 0 :: ra)) -> get h e = Some (CSlots T) -> get h p = Some (CSlots (pre ++ old)) ->
  text s -> (length s < fuel)%nat -> zlen (concat (map f s)) < zlen old ->
  exists h', h_encode_loop fuel e a (zlen pa) p (zlen pre) h = Ok (tt, h') /\
    get h' p = Some (CSlots (pre ++ concat (map f s) ++ 0 :: skipn (S (length (concat (map f s)))) old)) /\ same_outside [p] h h'.
Proof.
  intros Nap Nep Hf Ht. induction s as [|c s IH]; intros pa ra [|fuel] h pre old Ga Ge Gp Hs Hfu Hl; try (cbn [length] in Hfu; lia); cbn [h_encode_loop].
  - erewrite bnd_Ok by (eapply ld_byte_ok; [exact Ga|reflexivity]). change (truth 0) with false. cbn iota.
    destruct old as [|x old]; [cbn in Hl; lia|]. destruct (st_byte_ok h p pre x old (zlen pre) 0 Gp eq_refl) as (h1 & E1 & G1 & S1).
    exists h1. split; [exact E1|]. split; [exact G1|exact S1].
  - apply text_cons in Hs. destruct Hs as [Hc Hs]. cbn [app] in Ga. cbn [length] in Hfu. cbn [map concat] in *. rewrite zlen_app in Hl.
    pose proof (zlen_nonneg (concat (map f s))) as P.
    erewrite bnd_Ok by (eapply ld_byte_ok; [exact Ga|reflexivity]). rewrite truth_pos by exact Hc. cbn iota.
    unfold h_url_custom_encode_byte. rewrite u8_small by (change (2 ^ 8) with 256; lia). rewrite (bnd_Ok _ _ _ _ _ (block_fuel_ok _ _ _ Ge)).
    destruct (tbl_entry f T c Ht ltac:(lia)) as (pu & ru & ET & Lu). rewrite <- Lu. destruct (Hf c Hc) as (Tc & _).
    rewrite <- (firstn_skipn (length (f c)) old) in Gp.
    assert (Ge' : get h e = Some (CSlots (pu ++ f c ++ 0 :: ru))) by (rewrite Ge, ET; reflexivity).
    destruct (put_heap_ok e p Nep (f c) pu ru (S (length T)) h pre (firstn (length (f c)) old) (skipn (length (f c)) old) Ge' Gp) as (h1 & E1 & G1 & S1).
    { unfold zlen in *. rewrite firstn_length. lia. } { exact Tc. } { rewrite ET, !app_length. lia. }
    rewrite (bnd_Ok _ _ _ _ _ E1).
    assert (Ga1 : get h1 a = Some (CSlots ((pa ++ [c]) ++ s ++ 0 :: ra))). { rewrite S1 by (intros [X|[]]; congruence). rewrite Ga, <- app_assoc. reflexivity. }
    assert (Ge1 : get h1 e = Some (CSlots T)). { rewrite S1 by (intros [X|[]]; congruence). exact Ge. }
    rewrite app_assoc in G1. replace (zlen pa + 1) with (zlen (pa ++ [c])) by (rewrite zlen_snoc; lia). rewrite <- zlen_app.
    destruct (IH (pa ++ [c]) ra fuel h1 (pre ++ f c) (skipn (length (f c)) old) Ga1 Ge1 G1 Hs ltac:(lia)) as (h2 & E2 & G2 & S2).
    { unfold zlen in *. rewrite skipn_length. lia. }
    exists h2. split; [exact E2|]. split.
    + rewrite G2, <- !app_assoc. rewrite skipn_skipn, app_length.
      replace (S (length (concat (map f s))) + length (f c))%nat with (S (length (f c) + length (concat (map f s)))) by lia. reflexivity.
    + intros y Hy. rewrite S2, S1 by exact Hy. reflexivity.
Qed.

Lemma widths_bound f : wide_code f -> forall s, text s -> zlen (concat (map f s)) <= fold_right Z.add 0 (map (width f) s) <= 3 * zlen s.
Proof.
  intros Hf. induction s as [|c s IH]; intros Hs; [cbn; lia|]. apply text_cons in Hs. destruct Hs as [Hc Hs]. specialize (IH Hs).
  cbn [map concat fold_right]. rewrite zlen_app, zlen_cons. destruct (Hf c Hc) as (_ & A & B). lia.
Qed.

Lemma custom_encode_ok junk h e f T a i s : wide_code f -> tbl f T -> get h e = Some (CSlots T) -> string_at h a i s ->
  3 * zlen s + 1 < 2 ^ 64 ->
  exists p h' slack, h_url_custom_encode junk e a i h = Ok (p, h') /\ one_new_block h h' p (concat (map f s) ++ 0 :: slack) /\
    zlen slack = fold_right Z.add 0 (map (width f) s) - zlen (concat (map f s)).
Proof.
  intros Hf Ht Ge (pa & ra & Ga & <- & Hs) Hl. unfold h_url_custom_encode. rewrite (bnd_Ok _ _ _ _ _ (block_fuel_ok _ _ _ Ga)).
  pose proof (zlen_nonneg s) as P0. pose proof (widths_bound f Hf s Hs) as W. pose proof (zlen_nonneg (concat (map f s))) as P1.
  erewrite bnd_Ok by (apply (length_heap_ok a e f T Hf Ht s pa ra _ h 0 Ga Ge Hs); [rewrite !app_length; lia|lia|lia]).
  rewrite Z.add_0_l. set (m := fold_right Z.add 0 (map (width f) s)) in *. rewrite u64_small by lia.
  destruct (alloc_spec (CSlots (fresh_block junk (m + 1))) h) as (p & h1 & E1 & Np & Fp & G1). rewrite (bnd_Ok _ _ _ _ _ E1).
  assert (Nap : a <> p) by congruence. assert (Nep : e <> p) by congruence.
  assert (O1 : forall x, x <> p -> get h1 x = get h x). { intros x Hx. rewrite G1. replace (x =? p) with false by lia. reflexivity. }
  assert (Gp1 : get h1 p = Some (CSlots ([] ++ fresh_block junk (m + 1)))). { rewrite G1, Z.eqb_refl. reflexivity. }
  rewrite <- (O1 a Nap) in Ga. rewrite <- (O1 e Nep) in Ge. rewrite (bnd_Ok _ _ _ _ _ (block_fuel_ok _ _ _ Ga)).
  pose proof (fresh_block_zlen junk (m + 1) ltac:(lia)) as Lf.
  destruct (encode_heap_ok a e p f T Nap Nep Hf Ht s pa ra (S (length (pa ++ s ++ 0 :: ra))) h1 [] (fresh_block junk (m + 1)) Ga Ge Gp1 Hs) as (h2 & E2 & G2 & S2).
  { rewrite !app_length. lia. } { lia. }
  change (zlen (@nil Z)) with 0 in E2. rewrite (bnd_Ok _ _ _ _ _ E2). exists p, h2. eexists. split; [reflexivity|]. split.
  - split; [exact Np|]. split; [exact Fp|]. split; [exact G2|]. intros x Hx. rewrite S2 by exact Hx. apply O1. intros ->. apply Hx. left; reflexivity.
  - unfold zlen in *. rewrite skipn_length. lia.
Qed.

Lemma custom_wide r u c : 0 < c < 256 -> text (custom_code r u c) /\ 1 <= zlen (custom_code r u c) <= width (custom_code r u) c /\
  width (custom_code r u) c <= 3 /\ (~ In 37 u -> zlen (custom_code r u c) = width (custom_code r u) c).
Proof.
  intros Hc. unfold width, custom_code. destruct (existsb (Z.eqb c) u) eqn:Eu.
  - cbn [nth]. split; [repeat constructor; lia|]. change (zlen [c]) with 1. destruct (c =? 37) eqn:E; (split; [lia|]); (split; [lia|]); [|lia].
    intros N. destruct N. apply existsb_exists in Eu. destruct Eu as (x & Hx & Ex). replace 37 with x by lia. exact Hx.
  - destruct (existsb (Z.eqb c) r).
    + pose proof (percent_good c ltac:(lia)) as (A & _). rewrite percent_ok in A by lia. split; [exact A|].
      cbn [percent_encoding nth]. change (37 =? 37) with true. unfold zlen. cbn [length percent_encoding]. lia.
    + pose proof (standard_tame c ltac:(lia)) as S. split; [apply tame_text; exact S|]. unfold tame in S. destruct (_ =? 37); lia.
Qed.
Lemma custom_wide_code r u : wide_code (custom_code r u).
Proof. intros c Hc. destruct (custom_wide r u c Hc) as (A & B & C & _). auto. Qed.
Lemma custom_tight r u : ~ In 37 u -> forall s, text s -> fold_right Z.add 0 (map (width (custom_code r u)) s) = zlen (concat (map (custom_code r u) s)).
Proof.
  intros N. induction s as [|c s IH]; intros Hs; [reflexivity|]. apply text_cons in Hs. destruct Hs as [Hc Hs].
  cbn [map concat fold_right]. rewrite zlen_app, IH by exact Hs. destruct (custom_wide r u c Hc) as (_ & _ & _ & A). rewrite A by exact N. reflexivity.
Qed.

(** ** Histories *)
Lemma encoders_ok static h live : encoders static h live ->
  get h static = Some (CSlots static_bytes) /\ NoDup (static :: map fst live) /\
  (forall e r u, In (e, (r, u)) live -> exists T, get h e = Some (CSlots T) /\ tbl (custom_code r u) T).
Proof.
  induction 1 as [h G|h live junk a i r b j u e h' H (Gs & ND & IH) Ha Hb E|h before e ru after h' H (Gs & ND & IH) E|h live h' H (Gs & ND & IH) Es El].
  - split; [exact G|]. split; [constructor; [intros []|constructor]|]. intros ? ? ? [].
  - destruct (create_heap_ok junk static h a i r b j u Gs Ha Hb) as (e' & h2 & T & E' & (Ne & Fe & Ge & S) & Ht & _).
    rewrite E in E'. injection E' as <- <-. split; [rewrite S; [exact Gs|intros [X|[]]; congruence]|]. split.
    + cbn [map fst]. inversion ND as [|? ? N1 N2]. subst. constructor.
      * intros [X|X]; [congruence|exact (N1 X)].
      * constructor; [|exact N2]. intros X. apply in_map_iff in X. destruct X as ((x & r' & u') & X1 & X2). cbn [fst] in X1. subst x.
        destruct (IH e r' u' X2) as (T' & G' & _). congruence.
    + intros x r' u' [X|X].
      * injection X as -> -> ->. exists T. auto.
      * destruct (IH x r' u' X) as (T' & G' & Ht'). exists T'. split; [|exact Ht']. rewrite S; [exact G'|]. intros [Y|[]]. congruence.
  - rewrite map_app in ND. cbn [map fst] in ND. inversion ND as [|? ? N1 N2]. subst.
    pose proof (NoDup_remove _ _ _ N2) as (N3 & N4).
    unfold h_destroy_url_encoder, free in E. destruct (get h e) eqn:Ge; [|discriminate]. injection E as <-.
    split; [rewrite get_drop; replace (static =? e) with false; [exact Gs|]|split].
    + symmetry. apply Z.eqb_neq. intros ->. apply N1. apply in_or_app. right; left; reflexivity.
    + constructor; [|rewrite map_app; exact N3]. intros X. apply N1. rewrite map_app in X. apply in_app_or in X. apply in_or_app. cbn [In]. tauto.
    + intros x r' u' X. destruct (IH x r' u') as (T' & G' & Ht'). { apply in_app_or in X. apply in_or_app. cbn [In]. tauto. }
      exists T'. split; [|exact Ht']. rewrite get_drop. replace (x =? e) with false; [exact G'|]. symmetry. apply Z.eqb_neq. intros ->.
      apply N4. rewrite <- map_app. apply in_map_iff. exists (e, (r', u')). auto.
  - split; [rewrite Es; exact Gs|]. split; [exact ND|]. intros e r u X. destruct (IH e r u X) as (T & G & Ht). exists T. split; [|exact Ht].
    rewrite (El e (r, u) X). exact G.
Qed.
