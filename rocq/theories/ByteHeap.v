(** Byte arrays on the heap: each function does to the array what ByteArrayModel.v says, and
    touches its blocks only. *)
From Verif Require Import Base CMem Heap ListModel ListSpec ListProofs ObjModel OwnModel OwnSpec OwnProofs ObjBase ByteArrayModel ByteHeapModel.
From Coq Require Import ZifyBool ZifyNat.

Definition bytes_at (h : heap) (p d : Z) (a : byte_array) : Prop :=
  get h p = Some (CSlots [d; cursor a; max_size a; size a; ref_count a]) /\ get h d = Some (CSlots (data a)) /\ p <> d.

Section Arrays.
Variables (junk : nat -> Z) (p : Z).

Lemma b_data {B} (g : Z -> M B) h d a : bytes_at h p d a -> bnd (field p BA_data) g h = g d h.
Proof. intros (G & _). apply (step_field g p BA_data _ d h G). reflexivity. Qed.
Lemma b_cursor {B} (g : Z -> M B) h d a : bytes_at h p d a -> bnd (field p BA_cursor) g h = g (cursor a) h.
Proof. intros (G & _). apply (step_field g p BA_cursor _ _ h G). reflexivity. Qed.
Lemma b_max {B} (g : Z -> M B) h d a : bytes_at h p d a -> bnd (field p BA_max) g h = g (max_size a) h.
Proof. intros (G & _). apply (step_field g p BA_max _ _ h G). reflexivity. Qed.
Lemma b_size {B} (g : Z -> M B) h d a : bytes_at h p d a -> bnd (field p BA_size) g h = g (size a) h.
Proof. intros (G & _). apply (step_field g p BA_size _ _ h G). reflexivity. Qed.
Lemma b_refs {B} (g : Z -> M B) h d a : bytes_at h p d a -> bnd (field p BA_refs) g h = g (ref_count a) h.
Proof. intros (G & _). apply (step_field g p BA_refs _ _ h G). reflexivity. Qed.

(** Writes of a field, of the bytes. *)
Lemma struct_put h d a c m s r e : bytes_at h p d a -> let h' := put_cell h p (CSlots [d; c; m; s; r]) in
  bytes_at h' p d (BA (data a) c m s r e) /\ turns [p; d] [p; d] h h'.
Proof.
  intros (G & D & N). pose proof (get_nonnull _ _ _ G) as Np. cbv zeta. split.
  - split; [rewrite get_put, Z.eqb_refl by exact Np; reflexivity|]. split; [|exact N].
    rewrite get_put by exact Np. destruct (Z.eqb_spec d p); [congruence|exact D].
  - apply turns_put; [left; reflexivity|exact Np].
Qed.
Lemma set_cursor_field h d a c e : bytes_at h p d a -> exists h', set_field p BA_cursor c h = Ok (tt, h') /\
  bytes_at h' p d (BA (data a) c (max_size a) (size a) (ref_count a) e) /\ turns [p; d] [p; d] h h'.
Proof. intros A. eexists. split; [eapply set_field_ok; [exact (proj1 A)|reflexivity]|]. apply struct_put. exact A. Qed.
Lemma set_size_field h d a s e : bytes_at h p d a -> exists h', set_field p BA_size s h = Ok (tt, h') /\
  bytes_at h' p d (BA (data a) (cursor a) (max_size a) s (ref_count a) e) /\ turns [p; d] [p; d] h h'.
Proof. intros A. eexists. split; [eapply set_field_ok; [exact (proj1 A)|reflexivity]|]. apply struct_put. exact A. Qed.
Lemma set_refs_field h d a r e : bytes_at h p d a -> exists h', set_field p BA_refs r h = Ok (tt, h') /\
  bytes_at h' p d (BA (data a) (cursor a) (max_size a) (size a) r e) /\ turns [p; d] [p; d] h h'.
Proof. intros A. eexists. split; [eapply set_field_ok; [exact (proj1 A)|reflexivity]|]. apply struct_put. exact A. Qed.
Lemma block_put h d a b e : bytes_at h p d a -> let h' := put_cell h d (CSlots b) in
  bytes_at h' p d (BA b (cursor a) (max_size a) (size a) (ref_count a) e) /\ turns [p; d] [p; d] h h'.
Proof.
  intros (G & D & N). pose proof (get_nonnull _ _ _ D) as Nd. cbv zeta. split.
  - split; [rewrite get_put by exact Nd; destruct (Z.eqb_spec p d); [congruence|exact G]|]. split; [|exact N].
    rewrite get_put, Z.eqb_refl by exact Nd. reflexivity.
  - apply turns_put; [right; left; reflexivity|exact Nd].
Qed.
Lemma set_byte h d a i v b e : bytes_at h p d a -> wr (data a) i v = Ok b -> exists h', set_field d i v h = Ok (tt, h') /\
  bytes_at h' p d (BA b (cursor a) (max_size a) (size a) (ref_count a) e) /\ turns [p; d] [p; d] h h'.
Proof. intros A W. eexists. split; [eapply set_field_ok; [exact (proj1 (proj2 A))|exact W]|]. apply block_put. exact A. Qed.
Lemma store_own h d a i w b e : bytes_at h p d a -> blit (data a) i w = Ok b -> exists h', h_store p i w h = Ok (tt, h') /\
  bytes_at h' p d (BA b (cursor a) (max_size a) (size a) (ref_count a) e) /\ turns [p; d] [p; d] h h'.
Proof.
  intros A W. unfold h_store. rewrite (b_data _ _ _ _ A). rewrite (step_ld_slots _ _ _ _ (proj1 (proj2 A))). rewrite W, step_lift.
  eexists. split; [unfold st_slots; rewrite (proj1 (proj2 A)); reflexivity|]. apply block_put. exact A.
Qed.
Lemma set_cursor_own h d a D c a' : bytes_at h p d (set_data a D) -> set_cursor a D c = Ok a' ->
  exists h', h_set_cursor p c h = Ok (tt, h') /\ bytes_at h' p d a' /\ turns [p; d] [p; d] h h'.
Proof.
  intros A H. unfold set_cursor in H. destruct (wr D c 0) as [b| | |] eqn:W; cbn [bind] in H; try discriminate. injection H as <-.
  unfold h_set_cursor. destruct (set_cursor_field h d _ c 0 A) as (h1 & E1 & A1 & T1). rewrite (bnd_Ok _ _ _ _ _ E1).
  rewrite (b_data _ _ _ _ A1). rewrite (b_cursor _ _ _ _ A1). cbn [cursor data max_size size ref_count set_data] in *.
  destruct (set_byte h1 d _ c 0 b (errno a) A1 W) as (h2 & E2 & A2 & T2). exists h2. split; [exact E2|]. split; [exact A2|]. eapply turns_trans; eauto.
Qed.

(** The block replaced by another one. *)
Lemma resize_block_own h d a n e : bytes_at h p d a -> exists d' h',
  (let! d := h_resize_block junk d n in set_field p BA_data d) h = Ok (tt, h') /\
  bytes_at h' p d' (BA (realloc junk (data a) n) (cursor a) (max_size a) (size a) (ref_count a) e) /\ turns [p; d] [p; d'] h h'.
Proof.
  intros (G & D & N). pose proof (get_nonnull _ _ _ G) as Np. unfold h_resize_block. rewrite bnd_assoc. rewrite (step_ld_slots _ _ _ _ D).
  rewrite bnd_assoc. rewrite (step_free _ _ _ _ D).
  destruct (alloc_spec (CSlots (realloc junk (data a) n)) (drop_cell h d)) as (d' & h2 & E & Nd & Fd & G2). rewrite (bnd_Ok _ _ _ _ _ E).
  assert (Gp1 : get (drop_cell h d) p = get h p) by (rewrite get_drop; destruct (Z.eqb_spec p d); [congruence|reflexivity]).
  assert (Npd : p <> d') by congruence.
  assert (Gp2 : get h2 p = Some (CSlots [d; cursor a; max_size a; size a; ref_count a])).
  { rewrite G2. destruct (Z.eqb_spec p d'); [congruence|]. rewrite Gp1. exact G. }
  exists d', (put_cell h2 p (CSlots [d'; cursor a; max_size a; size a; ref_count a])). split; [eapply set_field_ok; [exact Gp2|reflexivity]|]. split.
  - split; [rewrite get_put, Z.eqb_refl by exact Np; reflexivity|]. split; [|exact Npd].
    rewrite get_put by exact Np. destruct (Z.eqb_spec d' p); [congruence|]. rewrite G2, Z.eqb_refl. reflexivity.
  - rewrite get_drop in Fd. split; [|split].
    + intros x X Y. cbn [In] in X, Y. rewrite get_put by exact Np. destruct (Z.eqb_spec x p); [subst; tauto|]. rewrite G2.
      destruct (Z.eqb_spec x d'); [subst; tauto|]. rewrite get_drop. destruct (Z.eqb_spec x d); [subst; tauto|reflexivity].
    + intros x X Y. cbn [In] in X, Y. destruct X as [<-|[<-|[]]]; [tauto|]. destruct (Z.eqb_spec d' d); [subst; tauto|exact Fd].
    + intros x X Y. cbn [In] in X, Y. destruct X as [<-|[<-|[]]]; [tauto|]. rewrite get_put by exact Np. destruct (Z.eqb_spec d p); [congruence|]. rewrite G2.
      destruct (Z.eqb_spec d d'); [subst; tauto|]. rewrite get_drop, Z.eqb_refl. reflexivity.
Qed.

Lemma ensure_space_own h d a len a' ok : bytes_at h p d a -> ensure_space junk a len = Ok (a', ok) ->
  exists d' h', h_ensure_space junk p len h = Ok (ok, h') /\ bytes_at h' p d' a' /\ turns [p; d] [p; d'] h h'.
Proof.
  intros A H. unfold ensure_space in H. unfold h_ensure_space. rewrite (b_max _ _ _ _ A). rewrite (b_cursor _ _ _ _ A).
  destruct (len >=? u64 (max_size a - cursor a)).
  - injection H as <- <-. exists d, h. split; [reflexivity|]. split; [exact A|apply turns_refl].
  - rewrite (b_size _ _ _ _ A). destruct (len >=? u64 (size a - cursor a)).
    + destruct (round_loop 66 (u64 (cursor a + len + 1)) 1) as [n| | |]; cbn [bind] in H; try discriminate. injection H as <- <-. rewrite step_lift.
      destruct (set_size_field h d a n 0 A) as (h1 & E1 & A1 & T1). rewrite (bnd_Ok _ _ _ _ _ E1).
      rewrite (b_data _ _ _ _ A1). rewrite (b_size _ _ _ _ A1). cbn [size].
      destruct (resize_block_own h1 d _ n (errno a) A1) as (d' & h2 & E2 & A2 & T2). rewrite <- bnd_assoc. rewrite (bnd_Ok _ _ _ _ _ E2).
      exists d', h2. split; [reflexivity|]. split; [exact A2|]. eapply turns_trans; eauto.
    + injection H as <- <-. exists d, h. split; [reflexivity|]. split; [exact A|apply turns_refl].
Qed.

(** The source is read while the array is changed. *)
Definition readable (h : heap) (d : Z) (src : source) (s : list Z) : Prop :=
  forall d' h', turns [p; d] [p; d'] h h' -> src h' = Ok (s, h').
Lemma copy_from_own h d a i src s len b e : bytes_at h p d a -> src h = Ok (s, h) -> (len >? zlen s) = false ->
  blit (data a) i (firstn (Z.to_nat len) s) = Ok b -> exists h', h_copy_from p i src len h = Ok (tt, h') /\
  bytes_at h' p d (BA b (cursor a) (max_size a) (size a) (ref_count a) e) /\ turns [p; d] [p; d] h h'.
Proof.
  intros A S L W. unfold h_copy_from. rewrite (bnd_Ok _ _ _ _ _ S). rewrite L. apply store_own; assumption.
Qed.

Lemma copy_own h d a pos src s len a' ok : bytes_at h p d a -> readable h d src s -> byte_array_copy junk a pos s len = Ok (a', ok) ->
  exists d' h', h_byte_array_copy junk p pos src len h = Ok (ok, h') /\ bytes_at h' p d' a' /\ turns [p; d] [p; d'] h h'.
Proof.
  intros A S H. unfold byte_array_copy in H. unfold h_byte_array_copy. rewrite (b_cursor _ _ _ _ A). destruct (pos >? cursor a).
  { injection H as <- <-. exists d, h. split; [reflexivity|]. split; [exact A|apply turns_refl]. }
  destruct (if len >? u64 (cursor a - pos) then ensure_space junk a (u64 (pos + len - cursor a)) else Ok (a, true)) as [[a1 ok1]| | |] eqn:E; cbn [bind] in H; try discriminate.
  assert (G : exists d1 h1, (if len >? u64 (cursor a - pos) then h_ensure_space junk p (u64 (pos + len - cursor a)) else ret true) h = Ok (ok1, h1) /\ bytes_at h1 p d1 a1 /\ turns [p; d] [p; d1] h h1).
  { destruct (len >? u64 (cursor a - pos)); [exact (ensure_space_own h d a _ a1 ok1 A E)|]. injection E as <- <-. exists d, h. split; [reflexivity|]. split; [exact A|apply turns_refl]. }
  destruct G as (d1 & h1 & E1 & A1 & T1). rewrite (bnd_Ok _ _ _ _ _ E1). destruct ok1; cbn [negb] in *.
  2: { injection H as <- <-. exists d1, h1. auto. }
  destruct (len >? zlen s) eqn:L; [discriminate|]. destruct (blit (data a1) pos _) as [D| | |] eqn:W; cbn [bind] in H; try discriminate.
  destruct (copy_from_own h1 d1 a1 pos src s len D (errno a1) A1 (S d1 h1 T1) L W) as (h2 & E2 & A2 & T2). rewrite (bnd_Ok _ _ _ _ _ E2).
  rewrite (b_cursor _ _ _ _ A2). cbn [cursor]. destruct (len >? u64 (cursor a1 - pos)).
  - destruct (set_cursor a1 D (u64 (pos + len))) as [a2| | |] eqn:C; cbn [bind] in H; try discriminate. injection H as <- <-.
    destruct (set_cursor_own h2 d1 a1 D _ a2 A2 C) as (h3 & E3 & A3 & T3). rewrite (bnd_Ok _ _ _ _ _ E3).
    exists d1, h3. split; [reflexivity|]. split; [exact A3|]. eapply turns_trans; [exact T1|]. eapply turns_trans; eauto.
  - injection H as <- <-. exists d1, h2. split; [reflexivity|]. split; [exact A2|]. eapply turns_trans; eauto.
Qed.
Lemma append_own h d a src s len a' ok : bytes_at h p d a -> readable h d src s -> byte_array_append junk a s len = Ok (a', ok) ->
  exists d' h', h_byte_array_append junk p src len h = Ok (ok, h') /\ bytes_at h' p d' a' /\ turns [p; d] [p; d'] h h'.
Proof.
  intros A S H. unfold byte_array_append in H. unfold h_byte_array_append.
  destruct (ensure_space junk a len) as [[a1 ok1]| | |] eqn:E; cbn [bind] in H; try discriminate.
  destruct (ensure_space_own h d a _ a1 ok1 A E) as (d1 & h1 & E1 & A1 & T1). rewrite (bnd_Ok _ _ _ _ _ E1). destruct ok1; cbn [negb] in *.
  2: { injection H as <- <-. exists d1, h1. auto. }
  destruct (len >? zlen s) eqn:L; [discriminate|]. destruct (blit (data a1) (cursor a1) _) as [D| | |] eqn:W; cbn [bind] in H; try discriminate.
  rewrite (b_cursor _ _ _ _ A1).
  destruct (copy_from_own h1 d1 a1 (cursor a1) src s len D (errno a1) A1 (S d1 h1 T1) L W) as (h2 & E2 & A2 & T2). rewrite (bnd_Ok _ _ _ _ _ E2).
  rewrite (b_cursor _ _ _ _ A2). cbn [cursor].
  destruct (set_cursor a1 D _) as [a2| | |] eqn:C; cbn [bind] in H; try discriminate. injection H as <- <-.
  destruct (set_cursor_own h2 d1 a1 D _ a2 A2 C) as (h3 & E3 & A3 & T3). rewrite (bnd_Ok _ _ _ _ _ E3).
  exists d1, h3. split; [reflexivity|]. split; [exact A3|]. eapply turns_trans; [exact T1|]. eapply turns_trans; eauto.
Qed.
Lemma copy_string_own h d a pos src s a' ok : bytes_at h p d a -> readable h d src s -> byte_array_copy_string junk a pos s = Ok (a', ok) ->
  exists d' h', h_byte_array_copy_string junk p pos src h = Ok (ok, h') /\ bytes_at h' p d' a' /\ turns [p; d] [p; d'] h h'.
Proof.
  intros A S H. unfold byte_array_copy_string in H. unfold h_byte_array_copy_string. rewrite (bnd_Ok _ _ _ _ _ (S d h (turns_refl _ _))).
  destruct (strlen s) as [n| | |]; cbn [bind] in H; try discriminate. rewrite step_lift. eapply copy_own; eassumption.
Qed.
Lemma append_string_own h d a src s a' ok : bytes_at h p d a -> readable h d src s -> byte_array_append_string junk a s = Ok (a', ok) ->
  exists d' h', h_byte_array_append_string junk p src h = Ok (ok, h') /\ bytes_at h' p d' a' /\ turns [p; d] [p; d'] h h'.
Proof.
  intros A S H. unfold byte_array_append_string in H. unfold h_byte_array_append_string. rewrite (bnd_Ok _ _ _ _ _ (S d h (turns_refl _ _))).
  destruct (strlen s) as [n| | |]; cbn [bind] in H; try discriminate. rewrite step_lift. eapply append_own; eassumption.
Qed.

Lemma stream_own h d a cb len a' asked count : bytes_at h p d a -> byte_array_append_stream junk a cb len = Ok (a', asked, count) ->
  exists d' h', h_byte_array_append_stream junk p cb len h = Ok ((asked, count), h') /\ bytes_at h' p d' a' /\ turns [p; d] [p; d'] h h'.
Proof.
  intros A H. unfold byte_array_append_stream in H. unfold h_byte_array_append_stream. rewrite (b_max _ _ _ _ A). rewrite (b_cursor _ _ _ _ A). cbv zeta in *.
  destruct ((len >=? u64 (max_size a - cursor a)) && (u64 (max_size a - cursor a) =? 1)).
  { injection H as <- <- <-. exists d, h. split; [reflexivity|]. split; [exact A|apply turns_refl]. }
  set (n := if len >=? u64 (max_size a - cursor a) then u64 (u64 (max_size a - cursor a) - 1) else len) in *. clearbody n.
  destruct (ensure_space junk a n) as [[a1 ok1]| | |] eqn:E; cbn [bind] in H; try discriminate.
  destruct (ensure_space_own h d a _ a1 ok1 A E) as (d1 & h1 & E1 & A1 & T1). rewrite (bnd_Ok _ _ _ _ _ E1). destruct ok1; cbn [negb] in *.
  2: { injection H as <- <- <-. exists d1, h1. auto. }
  rewrite (b_cursor _ _ _ _ A1). destruct (cb n) as [[w k] e].
  destruct (blit (data a1) (cursor a1) w) as [D| | |] eqn:W; cbn [bind] in H; try discriminate.
  destruct (store_own h1 d1 a1 _ w D e A1 W) as (h2 & E2 & A2 & T2). rewrite (bnd_Ok _ _ _ _ _ E2). destruct (k >? 0).
  - destruct (set_cursor _ D _) as [a2| | |] eqn:C; cbn [bind] in H; try discriminate. injection H as <- <- <-.
    rewrite (b_cursor _ _ _ _ A2). cbn [cursor]. cbn [cursor] in C.
    destruct (set_cursor_own h2 d1 (BA D (cursor a1) (max_size a1) (size a1) (ref_count a1) e) D _ a2 A2 C) as (h3 & E3 & A3 & T3). rewrite (bnd_Ok _ _ _ _ _ E3).
    exists d1, h3. split; [reflexivity|]. split; [exact A3|]. eapply turns_trans; [exact T1|]. eapply turns_trans; eauto.
  - injection H as <- <- <-. exists d1, h2. split; [reflexivity|]. split; [exact A2|]. eapply turns_trans; eauto.
Qed.

Lemma clear_own h d a a' : bytes_at h p d a -> byte_array_clear a = Ok a' ->
  exists h', h_byte_array_clear p h = Ok (tt, h') /\ bytes_at h' p d a' /\ turns [p; d] [p; d] h h'.
Proof.
  intros A H. unfold byte_array_clear, set_cursor in H. destruct (wr (data a) 0 0) as [b| | |] eqn:W; cbn [bind] in H; try discriminate. injection H as <-.
  unfold h_byte_array_clear. destruct (set_cursor_field h d a 0 0 A) as (h1 & E1 & A1 & T1). rewrite (bnd_Ok _ _ _ _ _ E1). rewrite (b_data _ _ _ _ A1).
  destruct (set_byte h1 d _ 0 0 b (errno a) A1 W) as (h2 & E2 & A2 & T2). exists h2. split; [exact E2|]. split; [exact A2|]. eapply turns_trans; eauto.
Qed.
Lemma resize_own h d a n c a' ok : bytes_at h p d a -> byte_array_resize junk a n c = Ok (a', ok) ->
  exists d' h', h_byte_array_resize junk p n c h = Ok (ok, h') /\ bytes_at h' p d' a' /\ turns [p; d] [p; d'] h h'.
Proof.
  intros A H. unfold byte_array_resize in H. unfold h_byte_array_resize. rewrite (b_cursor _ _ _ _ A).
  match type of H with bind ?e _ = _ => destruct e as [[a1 ok1]| | |] eqn:E; cbn [bind] in H; try discriminate end.
  match goal with |- exists d' h', bnd ?m _ h = _ /\ _ => assert (G : exists d1 h1, m h = Ok (ok1, h1) /\ bytes_at h1 p d1 a1 /\ turns [p; d] [p; d1] h h1) end.
  { destruct (n >? cursor a); [|injection E as <- <-; exists d, h; split; [reflexivity|]; split; [exact A|apply turns_refl]].
    destruct (ensure_space junk a (u64 (n - cursor a))) as [[a0 ok0]| | |] eqn:E0; cbn [bind] in E; try discriminate.
    destruct (ensure_space_own h d a _ a0 ok0 A E0) as (d0 & h0 & F0 & A0 & T0). rewrite (bnd_Ok _ _ _ _ _ F0). destruct ok0.
    - destruct (blit (data a0) (cursor a0) _) as [D| | |] eqn:W; cbn [bind] in E; try discriminate. injection E as <- <-.
      rewrite (b_cursor _ _ _ _ A0). destruct (store_own h0 d0 a0 _ _ D (errno a0) A0 W) as (h1 & E1 & A1 & T1). rewrite (bnd_Ok _ _ _ _ _ E1).
      exists d0, h1. split; [reflexivity|]. split; [exact A1|]. eapply turns_trans; eauto.
    - injection E as <- <-. exists d0, h0. auto. }
  destruct G as (d1 & h1 & E1 & A1 & T1). rewrite (bnd_Ok _ _ _ _ _ E1). destruct ok1; cbn [negb] in *.
  2: { injection H as <- <-. exists d1, h1. auto. }
  destruct (set_cursor a1 (data a1) n) as [a2| | |] eqn:C; cbn [bind] in H; try discriminate. injection H as <- <-.
  assert (A1' : bytes_at h1 p d1 (set_data a1 (data a1))) by exact A1.
  destruct (set_cursor_own h1 d1 a1 _ _ a2 A1' C) as (h2 & E2 & A2 & T2). rewrite (bnd_Ok _ _ _ _ _ E2).
  exists d1, h2. split; [reflexivity|]. split; [exact A2|]. eapply turns_trans; eauto.
Qed.

Lemma share_own h d a : bytes_at h p d a -> exists h', h_share_byte_array p h = Ok (p, h') /\ bytes_at h' p d (share_byte_array a) /\ turns [p; d] [p; d] h h'.
Proof.
  intros A. unfold h_share_byte_array. rewrite (b_refs _ _ _ _ A). destruct (set_refs_field h d a (u32 (ref_count a + 1)) (errno a) A) as (h1 & E1 & A1 & T1).
  rewrite (bnd_Ok _ _ _ _ _ E1). exists h1. split; [reflexivity|]. split; [exact A1|exact T1].
Qed.
Lemma destroy_own h d a : bytes_at h p d a -> exists h', h_destroy_byte_array p h = Ok (tt, h') /\
  match destroy_byte_array a with
  | Some a' => bytes_at h' p d a' /\ turns [p; d] [p; d] h h'
  | None => turns [p; d] [] h h'
  end.
Proof.
  intros A. unfold h_destroy_byte_array, destroy_byte_array. rewrite (b_refs _ _ _ _ A).
  destruct (set_refs_field h d a (u32 (ref_count a - 1)) (errno a) A) as (h1 & E1 & A1 & T1). rewrite (bnd_Ok _ _ _ _ _ E1).
  destruct (truth (u32 (ref_count a - 1))).
  - exists h1. split; [reflexivity|]. split; [exact A1|exact T1].
  - rewrite (b_data _ _ _ _ A1). destruct A1 as (G & D & N). rewrite (bnd_Ok _ _ _ _ _ (free_ok _ _ _ D)).
    assert (G' : get (drop_cell h1 d) p = get h1 p) by (rewrite get_drop; destruct (Z.eqb_spec p d); [congruence|reflexivity]). rewrite G in G'.
    exists (drop_cell (drop_cell h1 d) p). split; [exact (free_ok _ _ _ G')|]. eapply turns_trans; [exact T1|]. split; [|split].
    + intros y X _. cbn [In] in X. rewrite !get_drop. destruct (Z.eqb_spec y p); [subst; tauto|]. destruct (Z.eqb_spec y d); [subst; tauto|reflexivity].
    + intros y [].
    + intros y [<-|[<-|[]]] _; rewrite !get_drop, Z.eqb_refl; [reflexivity|]. destruct (d =? p); reflexivity.
Qed.
Lemma size_own h d a : bytes_at h p d a -> h_byte_array_size p h = Ok (byte_array_size a, h).
Proof. intros A. unfold h_byte_array_size. destruct A as (G & _). eapply field_ok; [exact G|reflexivity]. Qed.
Lemma data_own h d a : bytes_at h p d a -> h_byte_array_data p h = Ok (d, h).
Proof. intros A. unfold h_byte_array_data. destruct A as (G & _). eapply field_ok; [exact G|reflexivity]. Qed.
End Arrays.

Lemma make_own junk m a h : make_byte_array junk m = Ok a ->
  exists p d h', h_make_byte_array junk m h = Ok (p, h') /\ bytes_at h' p d a /\ turns [] [p; d] h h'.
Proof.
  intros H. unfold make_byte_array in H. set (n := if 128 >? m then m else 128) in *.
  destruct (wr (fresh_block junk n) 0 0) as [b| | |] eqn:W; cbn [bind] in H; try discriminate. injection H as <-.
  unfold h_make_byte_array. destruct (alloc_spec (CSlots (fresh_block junk 5)) h) as (p & h1 & E1 & Np & Fp & G1). rewrite (bnd_Ok _ _ _ _ _ E1).
  assert (Gp : get h1 p = Some (CSlots [junk 0%nat; junk 1%nat; junk 2%nat; junk 3%nat; junk 4%nat])) by (rewrite G1, Z.eqb_refl; reflexivity).
  assert (O1 : forall x, x <> p -> get h1 x = get h x) by (intros x X; rewrite G1; destruct (Z.eqb_spec x p); [congruence|reflexivity]).
  clear G1 E1. revert Gp O1. generalize (junk 0%nat) (junk 1%nat) (junk 2%nat) (junk 3%nat) (junk 4%nat). intros j0 j1 j2 j3 j4 Gp O1.
  rewrite (step_set_field _ p BA_cursor _ _ 0 _ Gp eq_refl). set (h2 := put_cell h1 p _).
  assert (Gp2 : get h2 p = Some (CSlots [j0; 0; j2; j3; j4])) by (unfold h2; rewrite get_put, Z.eqb_refl by exact Np; reflexivity).
  assert (O2 : forall x, x <> p -> get h2 x = get h x) by (intros x X; unfold h2; rewrite get_put by exact Np; destruct (Z.eqb_spec x p); [congruence|auto]).
  clearbody h2. clear Gp O1.
  rewrite (step_set_field _ p BA_max _ _ m _ Gp2 eq_refl). set (h3 := put_cell h2 p _).
  assert (Gp3 : get h3 p = Some (CSlots [j0; 0; m; j3; j4])) by (unfold h3; rewrite get_put, Z.eqb_refl by exact Np; reflexivity).
  assert (O3 : forall x, x <> p -> get h3 x = get h x) by (intros x X; unfold h3; rewrite get_put by exact Np; destruct (Z.eqb_spec x p); [congruence|auto]).
  clearbody h3. clear Gp2 O2.
  rewrite (step_set_field _ p BA_size _ _ 128 _ Gp3 eq_refl). set (h4 := put_cell h3 p _).
  assert (Gp4 : get h4 p = Some (CSlots [j0; 0; m; 128; j4])) by (unfold h4; rewrite get_put, Z.eqb_refl by exact Np; reflexivity).
  assert (O4 : forall x, x <> p -> get h4 x = get h x) by (intros x X; unfold h4; rewrite get_put by exact Np; destruct (Z.eqb_spec x p); [congruence|auto]).
  clearbody h4. clear Gp3 O3.
  rewrite (step_field _ p BA_size _ 128 _ Gp4 eq_refl).
  assert (Q : exists h5, (if 128 >? m then set_field p BA_size m else ret tt) h4 = Ok (tt, h5) /\ get h5 p = Some (CSlots [j0; 0; m; n; j4]) /\ forall x, x <> p -> get h5 x = get h x).
  { unfold n. destruct (128 >? m).
    - eexists. split; [eapply set_field_ok; [exact Gp4|reflexivity]|]. split; [rewrite get_put, Z.eqb_refl by exact Np; reflexivity|].
      intros x X. rewrite get_put by exact Np; destruct (Z.eqb_spec x p); [congruence|auto].
    - exists h4. split; [reflexivity|]. split; [exact Gp4|exact O4]. }
  destruct Q as (h5 & E5 & Gp5 & O5). rewrite (bnd_Ok _ _ _ _ _ E5). clear E5 Gp4 O4.
  rewrite (step_field _ p BA_size _ n _ Gp5 eq_refl).
  destruct (alloc_spec (CSlots (fresh_block junk n)) h5) as (d & h6 & E6 & Nd & Fd & G6). rewrite (bnd_Ok _ _ _ _ _ E6).
  assert (Npd : p <> d) by congruence.
  assert (Gp6 : get h6 p = Some (CSlots [j0; 0; m; n; j4])). { rewrite G6. destruct (Z.eqb_spec p d); [congruence|exact Gp5]. }
  rewrite (step_set_field _ p BA_data _ _ d _ Gp6 eq_refl). set (h7 := put_cell h6 p _).
  assert (A7 : bytes_at h7 p d (BA (fresh_block junk n) 0 m n j4 0)).
  { split; [unfold h7; rewrite get_put, Z.eqb_refl by exact Np; reflexivity|]. split; [|exact Npd]. cbn [data].
    unfold h7. rewrite get_put by exact Np. destruct (Z.eqb_spec d p); [congruence|]. rewrite G6, Z.eqb_refl. reflexivity. }
  rewrite (b_data _ _ _ _ _ A7). destruct (set_byte p h7 d _ 0 0 b 0 A7 W) as (h8 & E8 & A8 & T8). rewrite (bnd_Ok _ _ _ _ _ E8).
  destruct (set_refs_field p h8 d _ 1 0 A8) as (h9 & E9 & A9 & T9). rewrite (bnd_Ok _ _ _ _ _ E9). cbn [data cursor max_size size] in A9.
  exists p, d, h9. split; [reflexivity|]. split; [exact A9|].
  eapply turns_trans; [|eapply turns_trans; [exact T8|exact T9]]. rewrite O5 in Fd by congruence. split; [|split].
  - intros x _ X. cbn [In] in X. unfold h7. rewrite get_put by exact Np. destruct (Z.eqb_spec x p); [subst; tauto|]. rewrite G6.
    destruct (Z.eqb_spec x d); [subst; tauto|]. apply O5. congruence.
  - intros x [<-|[<-|[]]] _; assumption.
  - intros x [].
Qed.
