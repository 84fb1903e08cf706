(** Proofs for GenMemModel.v: who owns which block, and when. *)
From Verif Require Import Base CMem Heap ListModel ListSpec ListProofs CharstrModel CharstrSpec CharstrProofs Utf8Model Utf8Proofs IdnaTabModel IdnaTextModel IdnaTextProofs OwnModel OwnSpec OwnProofs NewMemModel GenMemModel.
From Coq Require Import Permutation.

(** ** A memory as a list of objects beside the memory of others *)
Inductive obj := OStr (p : Z) (b : list Z) | OList (l : Z) (es : list (Z * Z)).
Definition foot (o : obj) : list Z := match o with OStr p _ => [p] | OList l es => footprint l es end.
Definition holds (h : heap) (o : obj) : Prop :=
  match o with OStr p b => get h p = Some (CSlots b) | OList l es => is_list h l es end.
Definition feet (os : list obj) : list Z := flat_map foot os.

(** [others]: the blocks that are not in [os]. *)
Definition world (others : Z -> option cell) (h : heap) (os : list obj) : Prop :=
  NoDup (feet os) /\ Forall (holds h) os /\ (forall x, In x (feet os) -> others x = None) /\
  (forall x, ~ In x (feet os) -> get h x = others x).

Lemma feet_app a b : feet (a ++ b) = feet a ++ feet b.
Proof. unfold feet. rewrite flat_map_app. reflexivity. Qed.
Lemma feet_perm a b : Permutation a b -> Permutation (feet a) (feet b).
Proof. intros P. unfold feet. apply Permutation_flat_map. exact P. Qed.

Lemma world_perm others h a b : Permutation a b -> world others h a -> world others h b.
Proof.
  intros P (W1 & W2 & W3 & W4). pose proof (feet_perm _ _ P) as Q. split; [|split; [|split]].
  - eapply Permutation_NoDup; eauto.
  - rewrite Forall_forall. intros o Ho. rewrite Forall_forall in W2. apply W2. eapply Permutation_in; [symmetry; exact P|exact Ho].
  - intros x Hx. apply W3. eapply Permutation_in; [symmetry; exact Q|exact Hx].
  - intros x Hx. apply W4. intros X. apply Hx. eapply Permutation_in; eauto.
Qed.

(** Equality of the multisets, by counting. *)
Definition obj_dec (a b : obj) : {a = b} + {a <> b}.
Proof. repeat decide equality. Defined.
Lemma count_cons (x : obj) l y : count_occ obj_dec (x :: l) y = ((if obj_dec x y then 1 else 0) + count_occ obj_dec l y)%nat.
Proof. cbn [count_occ]. destruct (obj_dec x y); reflexivity. Qed.
Ltac perm := apply (Permutation_count_occ obj_dec); let y := fresh in intros y;
  rewrite ?count_occ_app, ?count_cons, ?count_occ_app, ?count_cons, ?count_occ_app, ?count_cons, ?count_occ_app, ?count_cons, ?count_occ_app, ?count_cons, ?count_occ_app, ?count_cons; cbn [count_occ]; lia.

Lemma world_get others h os p b : world others h os -> In (OStr p b) os -> get h p = Some (CSlots b).
Proof. intros (_ & W2 & _) I. rewrite Forall_forall in W2. exact (W2 _ I). Qed.
Lemma world_nonnull others h os p b : world others h os -> In (OStr p b) os -> p <> 0.
Proof. intros W I ->. pose proof (world_get _ _ _ _ _ W I) as G. discriminate G. Qed.
Lemma holds_alloc h o x : holds h o -> In x (foot o) -> get h x <> None.
Proof. destruct o as [p b|l es]; cbn [holds foot]; [intros H [<-|[]]; congruence|apply il_alloc]. Qed.
Lemma world_alloc others h os x : world others h os -> In x (feet os) -> get h x <> None.
Proof.
  intros (_ & W2 & _) I. apply in_flat_map in I. destruct I as (o & Ho & Hx). rewrite Forall_forall in W2.
  exact (holds_alloc _ _ _ (W2 _ Ho) Hx).
Qed.
Lemma world_new others h os x : world others h os -> get h x = None -> others x = None /\ ~ In x (feet os).
Proof.
  intros W G. assert (N : ~ In x (feet os)) by (intros I; exact (world_alloc _ _ _ _ W I G)).
  split; [|exact N]. rewrite <- (proj2 (proj2 (proj2 W)) x N). exact G.
Qed.
Lemma holds_frame h h' o : (forall x, In x (foot o) -> get h' x = get h x) -> holds h o -> holds h' o.
Proof. destruct o as [p b|l es]; cbn [holds foot]; intros F H; [rewrite F by (left; reflexivity); exact H|exact (il_frame _ _ _ _ F H)]. Qed.

(** A change of the first objects, with the other objects kept. *)
Lemma world_change others h h' a a' os :
  world others h (a ++ os) -> Forall (holds h') a' -> NoDup (feet a') ->
  (forall x, In x (feet a') -> ~ In x (feet a) -> get h x = None) ->
  (forall x, In x (feet a) -> ~ In x (feet a') -> get h' x = None) ->
  (forall x, ~ In x (feet a) -> ~ In x (feet a') -> get h' x = get h x) ->
  world others h' (a' ++ os).
Proof.
  intros W H ND N1 N2 SO. pose proof W as (W1 & W2 & W3 & W4). rewrite feet_app in W1, W3, W4. apply nodup_app_iff in W1. destruct W1 as (WA & WB & WC).
  assert (AP : forall x, In x (feet a') -> ~ In x (feet os)).
  { intros x I1 I2. destruct (in_dec Z.eq_dec x (feet a)) as [I|I]; [exact (WC x I I2)|].
    pose proof (N1 x I1 I) as G. destruct (world_new _ _ _ _ W G) as (_ & X). apply X. rewrite feet_app. apply in_or_app. auto. }
  apply Forall_app in W2. destruct W2 as (W2a & W2b). split; [|split; [|split]].
  - rewrite feet_app. apply nodup_app_iff. auto.
  - apply Forall_app. split; [exact H|]. rewrite Forall_forall in W2b |- *. intros o Ho. apply (holds_frame h); [|exact (W2b o Ho)].
    intros x Hx. assert (I2 : In x (feet os)) by (apply in_flat_map; eauto).
    apply SO; intros X; [exact (WC x X I2)|exact (AP x X I2)].
  - rewrite feet_app. intros x Hx. apply in_app_or in Hx. destruct Hx as [Hx|Hx]; [|apply W3, in_or_app; auto].
    destruct (in_dec Z.eq_dec x (feet a)) as [I|I]; [apply W3, in_or_app; auto|].
    exact (proj1 (world_new _ _ _ _ W (N1 x Hx I))).
  - rewrite feet_app. intros x Hx. assert (A1 : ~ In x (feet a') /\ ~ In x (feet os)) by (split; intros X; apply Hx, in_or_app; auto).
    destruct A1 as (A1 & A2). destruct (in_dec Z.eq_dec x (feet a)) as [I|I].
    + rewrite (N2 x I A1). symmetry. apply W3, in_or_app. auto.
    + rewrite (SO x I A1). apply W4. intros X. apply in_app_or in X. tauto.
Qed.

(** ** The steps *)
Lemma w_new others h os d : world others h os ->
  exists p h', new_string (Ok d) h = Ok (p, h') /\ p <> 0 /\ world others h' (OStr p d :: os).
Proof.
  intros W. destruct (new_string_ok d h) as (p & h' & E & N & F & G & S). exists p, h'. split; [exact E|]. split; [exact N|].
  apply (world_change others h h' [] [OStr p d] os W).
  - constructor; [exact G|constructor].
  - constructor; [intros []|constructor].
  - intros x [<-|[]] _. exact F.
  - intros x [].
  - intros x _ Hx. apply S. exact Hx.
Qed.

Lemma w_free others h os p b : world others h (OStr p b :: os) ->
  exists h', free p h = Ok (tt, h') /\ world others h' os.
Proof.
  intros W. pose proof (world_get _ _ _ p b W (or_introl eq_refl)) as G.
  exists (drop_cell h p). split; [unfold free; rewrite G; reflexivity|].
  apply (world_change others h (drop_cell h p) [OStr p b] [] os W).
  - constructor.
  - constructor.
  - intros x [].
  - intros x [<-|[]] _. rewrite get_drop, Z.eqb_refl. reflexivity.
  - intros x Hx _. rewrite get_drop. destruct (Z.eqb_spec x p) as [->|]; [|reflexivity]. destruct Hx. left; reflexivity.
Qed.

Lemma w_store others h os p b c : world others h (OStr p b :: os) ->
  exists h', st_slots p c h = Ok (tt, h') /\ world others h' (OStr p c :: os).
Proof.
  intros W. pose proof (world_get _ _ _ p b W (or_introl eq_refl)) as G.
  pose proof (world_nonnull _ _ _ p b W (or_introl eq_refl)) as N.
  exists (put_cell h p (CSlots c)). split; [unfold st_slots; rewrite G; reflexivity|].
  apply (world_change others h _ [OStr p b] [OStr p c] os W).
  - constructor; [|constructor]. cbn [holds]. rewrite (get_put _ _ _ _ N), Z.eqb_refl. reflexivity.
  - constructor; [intros []|constructor].
  - intros x [<-|[]] X. destruct X. left; reflexivity.
  - intros x [<-|[]] X. destruct X. left; reflexivity.
  - intros x Hx _. rewrite (get_put _ _ _ _ N). destruct (Z.eqb_spec x p) as [->|]; [|reflexivity]. destruct Hx. left; reflexivity.
Qed.

(** A list of strings: handle, value and content of the block. *)
Definition pair_of (t : Z * Z * list Z) : Z * Z := fst t.
Definition block_of (t : Z * Z * list Z) : list Z := snd t.
Definition str_of (t : Z * Z * list Z) : obj := OStr (snd (fst t)) (snd t).

Lemma triples (P : Z -> list Z -> Prop) es blocks : Forall2 P (values es) blocks ->
  exists ts, map pair_of ts = es /\ map block_of ts = blocks /\ Forall (fun t => P (snd (fst t)) (snd t)) ts.
Proof.
  revert blocks. induction es as [|[e v] es IH]; intros blocks F; cbn [values map snd] in F; inversion F; subst.
  - exists []. repeat split. constructor.
  - destruct (IH _ H3) as (ts & A & B & C). exists ((e, v, y) :: ts). cbn [map]. rewrite A, B. repeat split. constructor; assumption.
Qed.
Lemma feet_strs ts : feet (map str_of ts) = values (map pair_of ts).
Proof. induction ts as [|[[e v] b] ts IH]; [reflexivity|]. cbn. f_equal. exact IH. Qed.

Lemma w_list others h h' os l es blocks : world others h os -> new_string_list h h' l es blocks ->
  exists ts, map pair_of ts = es /\ map block_of ts = blocks /\ world others h' (OList l es :: map str_of ts ++ os).
Proof.
  intros W (LH & F2 & ND & FR & SO). destruct (triples _ _ _ F2) as (ts & A & B & C). exists ts. split; [exact A|]. split; [exact B|].
  change (OList l es :: map str_of ts ++ os) with ((OList l es :: map str_of ts) ++ os).
  assert (E : feet (OList l es :: map str_of ts) = footprint l es ++ values es).
  { cbn [feet flat_map foot]. fold (feet (map str_of ts)). rewrite feet_strs, A. reflexivity. }
  apply (world_change others h h' [] _ os W).
  - constructor; [exact (history_is_list _ _ _ LH)|]. rewrite Forall_forall in C |- *. intros o Ho. apply in_map_iff in Ho.
    destruct Ho as (t & <- & Ht). exact (C t Ht).
  - rewrite E. exact ND.
  - rewrite E. intros x Hx _. exact (FR x Hx).
  - intros x [].
  - rewrite E. intros x _ Hx. exact (SO x Hx).
Qed.

Lemma w_pop others h os l es : world others h (OList l es :: os) ->
  exists h', list_pop_first l h = Ok (hd 0 (values es), h') /\ world others h' (OList l (tl es) :: os).
Proof.
  intros W. pose proof W as (W1 & W2 & _). inversion W2 as [|? ? I _]; subst. cbn [holds] in I.
  destruct (pop_first_ok _ _ _ I) as (h' & E & I' & SO & FR). exists h'. split; [exact E|].
  assert (SUB : forall x, In x (footprint l (tl es)) -> In x (footprint l es)).
  { intros x [<-|Hx]; [left; reflexivity|]. right. destruct es as [|[e v] es]; [exact Hx|]. right. exact Hx. }
  apply (world_change others h h' [OList l es] [OList l (tl es)] os W); cbn [feet flat_map foot]; rewrite ?app_nil_r.
  - constructor; [exact I'|constructor].
  - exact (il_nodup _ _ _ I').
  - intros x Hx X. destruct (X (SUB x Hx)).
  - intros x Hx X. destruct es as [|[e v] es]; [destruct (X Hx)|]. destruct Hx as [<-|[<-|Hx]].
    + destruct X. left; reflexivity.
    + apply FR. discriminate.
    + destruct X. right. exact Hx.
  - intros x Hx _. exact (SO x Hx).
Qed.

Lemma w_destroy others h os l es : world others h (OList l es :: os) ->
  exists h', destroy_list l h = Ok (tt, h') /\ world others h' os.
Proof.
  intros W. pose proof W as (W1 & W2 & _). inversion W2 as [|? ? I _]; subst. cbn [holds] in I.
  destruct (destroy_list_ok _ _ _ I) as (h' & E & N & SO). exists h'. split; [exact E|].
  apply (world_change others h h' [OList l es] [] os W); cbn [feet flat_map foot]; rewrite ?app_nil_r.
  - constructor.
  - constructor.
  - intros x [].
  - intros x Hx _. exact (N x Hx).
  - intros x Hx _. exact (SO x Hx).
Qed.

Lemma w_free_all others h os l ts : world others h (OList l (map pair_of ts) :: map str_of ts ++ os) ->
  exists h', list_foreach l free h = Ok (tt, h') /\ world others h' (OList l (map pair_of ts) :: os).
Proof.
  intros W. pose proof W as (W1 & W2 & _). inversion W2 as [|? ? I W2']; subst. cbn [holds] in I.
  cbn [feet flat_map foot] in W1. fold (feet (map str_of ts ++ os)) in W1. rewrite feet_app, feet_strs in W1.
  rewrite app_assoc in W1. apply nodup_app_iff in W1. destruct W1 as (W1 & _ & _). apply nodup_app_iff in W1. destruct W1 as (ND1 & ND2 & AP).
  apply Forall_app in W2'. destruct W2' as (W2' & _).
  assert (F2 : Forall2 (fun p d => get h p = Some (CSlots d)) (values (map pair_of ts)) (map block_of ts)).
  { clear - W2'. induction ts as [|[[e v] b] ts IH]; [constructor|]. cbn in W2'. inversion W2'; subst. constructor; [assumption|apply IH; assumption]. }
  destruct (free_loop_ok l [] (map pair_of ts) (S (length (mem h))) h _ I (il_fuel _ _ _ I) F2 ND2 AP) as (h' & E & G).
  exists h'. split.
  { unfold list_foreach. erewrite bnd_Ok by reflexivity. rewrite (bnd_Ok _ _ _ _ _ (get_first_ok _ _ _ I)). exact E. }
  change (OList l (map pair_of ts) :: map str_of ts ++ os) with ((OList l (map pair_of ts) :: map str_of ts) ++ os) in W.
  assert (E1 : feet (OList l (map pair_of ts) :: map str_of ts) = footprint l (map pair_of ts) ++ values (map pair_of ts)).
  { cbn [feet flat_map foot]. fold (feet (map str_of ts)). rewrite feet_strs. reflexivity. }
  apply (world_change others h h' _ [OList l (map pair_of ts)] os W); rewrite ?E1; cbn [feet flat_map foot]; rewrite ?app_nil_r.
  - constructor; [|constructor]. cbn [holds]. apply (il_frame h); [|exact I]. intros x Hx. rewrite G.
    destruct (in_dec Z.eq_dec x (values (map pair_of ts))) as [X|]; [destruct (AP x Hx X)|reflexivity].
  - exact ND1.
  - intros x Hx X. destruct X. apply in_or_app. auto.
  - intros x Hx X. apply in_app_or in Hx. destruct Hx as [Hx|Hx]; [destruct (X Hx)|]. rewrite G.
    destruct (in_dec Z.eq_dec x (values (map pair_of ts))); tauto.
  - intros x Hx X. rewrite G. destruct (in_dec Z.eq_dec x (values (map pair_of ts))) as [Y|]; [|reflexivity].
    destruct Hx. apply in_or_app. auto.
Qed.

(** fsfree of NULL or of a string. *)
Definition maybe (p : Z) (o : option (list Z)) : list obj := match o with None => [] | Some b => [OStr p b] end.
Lemma w_free_null others h os p o : world others h (maybe p o ++ os) -> (p = 0 <-> o = None) ->
  exists h', free_or_null p h = Ok (tt, h') /\ world others h' os.
Proof.
  intros W N. unfold free_or_null. destruct o as [b|]; cbn [maybe app] in W.
  - destruct (Z.eqb_spec p 0) as [->|_]; [discriminate (proj1 N eq_refl)|]. exact (w_free _ _ _ _ _ W).
  - rewrite (proj2 N eq_refl). exists h. split; [reflexivity|exact W].
Qed.

(** ** The mapping *)
Lemma puts_length : forall vs b s e b' o, Utf8Proofs.puts b s e vs = Ok (b', o) -> length b' = length b.
Proof.
  induction vs as [|v vs IH]; intros b s e b' o H; cbn [Utf8Proofs.puts] in H; [injection H as <- <-; reflexivity|].
  destruct (at_index s e); [injection H as <- <-; reflexivity|]. unfold wr in H. destruct (inb b s) eqn:I; cbn [bind] in H; [|discriminate].
  rewrite (IH _ _ _ _ _ H). apply upd_length. unfold inb, zlen in I. lia.
Qed.
Lemma put_mapping_length : forall cps b q b' q', put_mapping cps b q = Ok (b', q') -> length b' = length b.
Proof.
  induction cps as [|cp cps IH]; intros b q b' q' H; cbn [put_mapping] in H; [injection H as <- <-; reflexivity|].
  rewrite Utf8Proofs.encode_puts in H. destruct (Utf8Proofs.puts b q (Some 99) (Utf8Proofs.enc cp)) as [[b1 [q1|]]| | |] eqn:E; cbn [bind] in H; try discriminate.
  rewrite (IH _ _ _ _ H). exact (puts_length _ _ _ _ _ _ E).
Qed.
Lemma c_string_parts : forall b m, c_string b = Ok m -> exists r, b = m ++ 0 :: r /\ no_nul m.
Proof.
  induction b as [|c b IH]; intros m H; cbn [c_string] in H; [discriminate|]. destruct (Z.eqb_spec c 0) as [->|N].
  - injection H as <-. exists b. split; [reflexivity|constructor].
  - destruct (c_string b) as [m'| | |] eqn:E; cbn [bind] in H; try discriminate. injection H as <-.
    destruct (IH _ eq_refl) as (r & -> & F). exists r. split; [reflexivity|constructor; assumption].
Qed.
Lemma dup_c_string junk b m : c_string b = Ok m -> zlen b < 2 ^ 64 -> dup_all junk b = Ok (as_block m).
Proof.
  intros H L. destruct (c_string_parts _ _ H) as (r & -> & F). rewrite zlen_app, zlen_cons in L. pose proof (zlen_nonneg r).
  unfold dup_all, charstr_dupstr. rewrite strlen_ok by exact F. cbn [bind]. rewrite dup_range_ok by lia. reflexivity.
Qed.

Lemma codepoints_loop_ok l : forall es pre n h blocks cps buffer q b' q',
  is_list h l (pre ++ es) -> (length es < n)%nat ->
  Forall2 (fun p d => get h p = Some (CSlots d)) (values es) blocks ->
  read_codepoints blocks = Ok cps -> put_mapping cps buffer q = Ok (b', q') ->
  h_codepoints_loop n (hd_addr es 0) buffer q h = Ok ((b', q'), h).
Proof.
  induction es as [|[e w] es IH]; intros pre n h blocks cps buffer q b' q' I Hn F2 R P; (destruct n as [|n]; [simpl in Hn; lia|]).
  - cbn [values map] in F2. inversion F2; subst. injection R as <-. cbn [put_mapping] in P. injection P as <- <-. reflexivity.
  - cbn [h_codepoints_loop hd_addr]. destruct (il_mid _ _ _ _ _ _ I) as (He & Ne & _).
    rewrite (proj2 (Z.eqb_neq e 0)) by exact Ne. rewrite (bnd_Ok _ _ _ _ _ (get_value_ok _ _ _ _ _ _ I)).
    cbn [values map snd] in F2. inversion F2 as [|? d ? bs Hw F2' E1 E2]. subst. rewrite (step_ld_slots _ _ _ _ Hw).
    cbn [read_codepoints] in R. destruct (strtol16 d) as [v| | |]; cbn [bind] in R; try discriminate.
    destruct (read_codepoints bs) as [r| | |] eqn:ER; cbn [bind] in R; try discriminate. injection R as <-.
    rewrite step_lift. cbn [put_mapping] in P.
    destruct (charstr_encode_utf8_codepoint (s32 v) buffer (Some q) (Some 99)) as [[b1 q1]| | |]; cbn [bind] in P; try discriminate.
    rewrite step_lift. cbn [fst snd]. destruct q1 as [q1|]; [|discriminate].
    rewrite (bnd_Ok _ _ _ _ _ (next_ok _ _ _ _ _ _ I)).
    apply (IH (pre ++ [(e, w)]) n h bs r); try assumption.
    + rewrite <- app_assoc. exact I.
    + simpl in Hn; lia.
Qed.

Definition mapping_buffer (junk : nat -> Z) (buffer : list Z) (o : option (list Z)) : res (list Z) :=
  match o with
  | None => Ok buffer
  | Some b =>
      codepoints <- charstr_split_atoms junk b ;;
      cps <- read_codepoints codepoints ;;
      ' (buffer, q) <- put_mapping cps buffer 0 ;;
      wr buffer q 0
  end.
Lemma w_mapping others junk h os p o buffer b' : world others h os -> incl (maybe p o) os -> (p = 0 <-> o = None) ->
  match o with Some b => zlen b < 2 ^ 59 | None => True end -> mapping_buffer junk buffer o = Ok b' ->
  exists h', h_mapping junk p buffer h = Ok (b', h') /\ world others h' os.
Proof.
  intros W I N L H. unfold h_mapping. destruct o as [b|]; cbn [maybe mapping_buffer] in *.
  - destruct (Z.eqb_spec p 0) as [E|_]; [discriminate (proj1 N E)|].
    pose proof (world_get _ _ _ _ _ W (I _ (or_introl eq_refl))) as G.
    destruct (charstr_split_atoms junk b) as [out| | |] eqn:E1; cbn [bind] in H; try discriminate.
    destruct (read_codepoints out) as [cps| | |] eqn:E2; cbn [bind] in H; try discriminate.
    destruct (put_mapping cps buffer 0) as [[b1 q1]| | |] eqn:E3; cbn [bind] in H; try discriminate.
    destruct (split_atoms_own junk h p b 0 out G L E1) as (l & h1 & es & S1 & O1). rewrite (bnd_Ok _ _ _ _ _ S1).
    pose proof O1 as (LH & F2 & _). pose proof (history_is_list _ _ _ LH) as IL.
    destruct (w_list _ _ _ _ _ _ _ W O1) as (ts & A & B & W1).
    erewrite bnd_Ok by reflexivity. rewrite (bnd_Ok _ _ _ _ _ (get_first_ok _ _ _ IL)).
    rewrite (bnd_Ok _ _ _ _ _ (codepoints_loop_ok l es [] _ h1 out cps buffer 0 b1 q1 IL (il_fuel _ _ _ IL) F2 E2 E3)).
    cbn [fst snd]. rewrite H, step_lift. rewrite <- A in W1.
    destruct (w_free_all _ _ _ _ _ W1) as (h2 & S2 & W2). rewrite (bnd_Ok _ _ _ _ _ S2).
    destruct (w_destroy _ _ _ _ _ W2) as (h3 & S3 & W3). rewrite (bnd_Ok _ _ _ _ _ S3).
    exists h3. split; [reflexivity|exact W3].
  - rewrite (proj2 N eq_refl). injection H as <-. exists h. split; [reflexivity|exact W].
Qed.

(** ** The entries *)
Lemma w_set others h os table pre x post k p : world others h (OStr table (pre ++ x :: post) :: os) -> k = zlen pre ->
  exists h', st_entry table k p h = Ok (tt, h') /\ world others h' (OStr table (pre ++ p :: post) :: os).
Proof.
  intros W K. unfold st_entry. rewrite (step_ld_slots _ _ _ _ (world_get _ _ _ _ _ W (or_introl eq_refl))).
  rewrite (wr_app pre x post k p K), step_lift. exact (w_store _ _ _ _ _ _ W).
Qed.
Lemma ld_entry_ok others h os table pre x post k : world others h (OStr table (pre ++ x :: post) :: os) -> k = zlen pre ->
  ld_entry table k h = Ok (x, h).
Proof.
  intros W K. unfold ld_entry. rewrite (step_ld_slots _ _ _ _ (world_get _ _ _ _ _ W (or_introl eq_refl))).
  rewrite (rd_app pre x post k K). reflexivity.
Qed.
Lemma w_strip others h os junk a b d : world others h os -> In (OStr a b) os -> charstr_strip junk (Some b) = Ok (Some d) ->
  exists p h', h_strip junk a 0 h = Ok (p, h') /\ p <> 0 /\ world others h' (OStr p d :: os).
Proof.
  intros W I H. unfold h_strip. destruct (Z.eqb_spec a 0) as [E|_]; [destruct (world_nonnull _ _ _ _ _ W I E)|].
  rewrite (step_ld_slots _ _ _ _ (world_get _ _ _ _ _ W I)). change (suffix_at b 0) with b. rewrite H.
  unfold new_string_or_null. rewrite step_lift. destruct (w_new _ _ _ d W) as (p & h' & E & R). exists p, h'.
  split; [|exact R]. unfold new_string in E. rewrite step_lift in E. exact E.
Qed.

(** The pointers of one entry, among the strings [ss]. *)
Definition points (ss : list (Z * list Z)) (p : Z) (o : option (list Z)) : Prop :=
  match o with None => p = 0 | Some s => p <> 0 /\ In (p, as_block s) ss end.
Definition strs (ss : list (Z * list Z)) : list obj := map (fun s => OStr (fst s) (snd s)) ss.
Definition nonnull (l : list Z) : list Z := filter (fun p => negb (p =? 0)) l.

Lemma points_incl ss ss' p o : incl ss ss' -> points ss p o -> points ss' p o.
Proof. intros I. destruct o; cbn [points]; [|auto]. intros (A & B). split; [exact A|apply I, B]. Qed.

Section Fill.
Variables (others : Z -> option cell) (junk : nat -> Z) (table : Z) (buffer : list Z) (os : list obj).
Variables (status mapping idna2008 : Z) (bs : list Z) (s : list Z) (m i bi : option (list Z)).
Hypothesis (Hs : In (OStr status bs) os) (Es : charstr_strip junk (Some bs) = Ok (Some (as_block s))).
Hypothesis (Nm : mapping = 0 <-> m = None) (Em : match m with Some b => dup_all junk buffer = Ok (as_block b) | None => True end).
Hypothesis (Ni : idna2008 = 0 <-> bi = None) (Hi : incl (maybe idna2008 bi) os)
  (Ei : match bi, i with Some b, Some d => charstr_strip junk (Some b) = Ok (Some (as_block d)) | None, None => True | _, _ => False end).

Lemma fill_ok : forall count pre post cp h ss,
  world others h (OStr table (pre ++ repeat 0 (3 * count) ++ post) :: strs ss ++ os) -> zlen pre = 3 * cp ->
  exists h' rows new, h_fill junk count table cp status mapping idna2008 buffer h = Ok (tt, h') /\
    length rows = count /\
    world others h' (OStr table (pre ++ concat rows ++ post) :: strs (new ++ ss) ++ os) /\
    Forall (fun row => exists ps pm pi, row = [ps; pm; pi] /\ points new ps (Some s) /\ points new pm m /\ points new pi i) rows /\
    Permutation (map fst new) (nonnull (concat rows)).
Proof using Hs Es Nm Em Ni Hi Ei.
  induction count as [|count IH]; intros pre post cp h ss W K.
  - exists h, [], []. split; [reflexivity|]. split; [reflexivity|]. split; [exact W|]. split; constructor.
  - replace (3 * S count)%nat with (S (S (S (3 * count)))) in W by lia. cbn [repeat app] in W.
    cbn [h_fill]. rewrite (bnd_Ok _ _ _ _ _ (ld_entry_ok _ _ _ _ _ _ _ (at_status cp) W (eq_sym K))). cbn [Z.eqb].
    assert (IN : forall o, In o os -> forall pr a, In o (OStr table pr :: strs a ++ os)).
    { intros o Ho pr a. right. apply in_or_app. right. exact Ho. }
    destruct (w_strip _ _ _ junk _ _ _ W (IN _ Hs _ _) Es) as (ps & h1 & E1 & N1 & W1). rewrite (bnd_Ok _ _ _ _ _ E1).
    assert (P1 : Permutation (OStr ps (as_block s) :: OStr table (pre ++ 0 :: 0 :: 0 :: repeat 0 (3 * count) ++ post) :: strs ss ++ os)
                   (OStr table (pre ++ 0 :: 0 :: 0 :: repeat 0 (3 * count) ++ post) :: strs ((ps, as_block s) :: ss) ++ os)) by apply perm_swap.
    apply (world_perm _ _ _ _ P1) in W1.
    destruct (w_set _ _ _ _ _ _ _ (at_status cp) ps W1 (eq_sym K)) as (h2 & E2 & W2). rewrite (bnd_Ok _ _ _ _ _ E2).
    set (s1 := (ps, as_block s) :: ss) in *.
    (* the mapping *)
    assert (M : exists pm h3 nm,
      (if mapping =? 0 then ret tt else let! p := new_string (dup_all junk buffer) in st_entry table (at_mapping cp) p) h2 = Ok (tt, h3) /\
      points nm pm m /\ map fst nm = nonnull [pm] /\
      world others h3 (OStr table ((pre ++ [ps]) ++ pm :: 0 :: repeat 0 (3 * count) ++ post) :: strs (nm ++ s1) ++ os)).
    { destruct m as [b|]; cbn [points].
      - destruct (Z.eqb_spec mapping 0) as [E|_]; [discriminate (proj1 Nm E)|]. rewrite Em.
        destruct (w_new _ _ _ (as_block b) W2) as (p & h3 & E3 & N3 & W3). rewrite (bnd_Ok _ _ _ _ _ E3).
        assert (P3 : Permutation (OStr p (as_block b) :: OStr table (pre ++ ps :: 0 :: 0 :: repeat 0 (3 * count) ++ post) :: strs s1 ++ os)
                   (OStr table ((pre ++ [ps]) ++ 0 :: 0 :: repeat 0 (3 * count) ++ post) :: strs ((p, as_block b) :: s1) ++ os)).
        { rewrite <- app_assoc. apply perm_swap. }
        apply (world_perm _ _ _ _ P3) in W3.
        destruct (w_set _ _ _ _ _ _ _ (at_mapping cp) p W3) as (h4 & E4 & W4).
        { unfold at_mapping. rewrite zlen_app, K. reflexivity. }
        exists p, h4, [(p, as_block b)]. split; [exact E4|]. split; [split; [exact N3|left; reflexivity]|]. split; [|exact W4].
        cbn. destruct (Z.eqb_spec p 0); [congruence|reflexivity].
      - rewrite (proj2 Nm eq_refl). exists 0, h2, []. split; [reflexivity|]. split; [reflexivity|]. split; [reflexivity|].
        rewrite <- app_assoc. exact W2. }
    destruct M as (pm & h3 & nm & E3 & Pm & Fm & W3). rewrite (bnd_Ok _ _ _ _ _ E3).
    assert (M : exists pi h4 ni,
      (if idna2008 =? 0 then ret tt else let! p := h_strip junk idna2008 0 in st_entry table (at_idna2008 cp) p) h3 = Ok (tt, h4) /\
      points ni pi i /\ map fst ni = nonnull [pi] /\
      world others h4 (OStr table ((pre ++ [ps; pm]) ++ pi :: repeat 0 (3 * count) ++ post) :: strs (ni ++ nm ++ s1) ++ os)).
    { destruct bi as [b|], i as [d|]; try contradiction; cbn [points].
      - destruct (Z.eqb_spec idna2008 0) as [E|_]; [discriminate (proj1 Ni E)|].
        destruct (w_strip _ _ _ junk idna2008 b (as_block d) W3 (IN _ (Hi _ (or_introl eq_refl)) _ _) Ei) as (p & h4 & E4 & N4 & W4).
        rewrite (bnd_Ok _ _ _ _ _ E4).
        assert (P4 : Permutation (OStr p (as_block d) :: OStr table ((pre ++ [ps]) ++ pm :: 0 :: repeat 0 (3 * count) ++ post) :: strs (nm ++ s1) ++ os)
                   (OStr table ((pre ++ [ps; pm]) ++ 0 :: repeat 0 (3 * count) ++ post) :: strs ((p, as_block d) :: nm ++ s1) ++ os)).
        { rewrite <- !app_assoc. apply perm_swap. }
        apply (world_perm _ _ _ _ P4) in W4.
        destruct (w_set _ _ _ _ _ _ _ (at_idna2008 cp) p W4) as (h5 & E5 & W5).
        { unfold at_idna2008. rewrite zlen_app, K. reflexivity. }
        exists p, h5, [(p, as_block d)]. split; [exact E5|]. split; [split; [exact N4|left; reflexivity]|]. split; [|exact W5].
        cbn. destruct (Z.eqb_spec p 0); [congruence|reflexivity].
      - rewrite (proj2 Ni eq_refl). exists 0, h3, []. split; [reflexivity|]. split; [reflexivity|]. split; [reflexivity|].
        rewrite <- app_assoc in W3 |- *. exact W3. }
    destruct M as (pi & h4 & ni & E4 & Pi & Fi & W4). rewrite (bnd_Ok _ _ _ _ _ E4).
    replace ((pre ++ [ps; pm]) ++ pi :: repeat 0 (3 * count) ++ post) with ((pre ++ [ps; pm; pi]) ++ repeat 0 (3 * count) ++ post) in W4
      by (rewrite <- !app_assoc; reflexivity).
    destruct (IH (pre ++ [ps; pm; pi]) post (cp + 1) h4 (ni ++ nm ++ s1) W4) as (h' & rows & new & E5 & L5 & W5 & R5 & F5).
    { rewrite zlen_app, K. change (zlen [ps; pm; pi]) with 3. lia. }
    exists h', ([ps; pm; pi] :: rows), (new ++ ni ++ nm ++ [(ps, as_block s)]). split; [exact E5|]. split; [cbn [length]; lia|]. split; [|split].
    + cbn [concat]. replace ((new ++ ni ++ nm ++ [(ps, as_block s)]) ++ ss) with (new ++ ni ++ nm ++ s1).
      * replace (pre ++ ([ps; pm; pi] ++ concat rows) ++ post) with ((pre ++ [ps; pm; pi]) ++ concat rows ++ post); [exact W5|].
        rewrite <- !app_assoc. reflexivity.
      * unfold s1. rewrite <- !app_assoc. reflexivity.
    + constructor.
      * exists ps, pm, pi. split; [reflexivity|]. split; [|split].
        -- split; [exact N1|]. repeat (apply in_or_app; right). left; reflexivity.
        -- apply (points_incl nm); [|exact Pm]. intros y Hy. apply in_or_app; right. apply in_or_app; right. apply in_or_app; left. exact Hy.
        -- apply (points_incl ni); [|exact Pi]. intros y Hy. apply in_or_app; right. apply in_or_app; left. exact Hy.
      * eapply Forall_impl; [|exact R5]. intros row (a & b & c & -> & A & B & C). exists a, b, c.
        assert (IC : incl new (new ++ ni ++ nm ++ [(ps, as_block s)])) by (intros y Hy; apply in_or_app; left; exact Hy).
        split; [reflexivity|]. split; [exact (points_incl _ _ _ _ IC A)|]. split; [exact (points_incl _ _ _ _ IC B)|exact (points_incl _ _ _ _ IC C)].
    + cbn [concat]. unfold nonnull in *. rewrite filter_app, !map_app, Fm, Fi. cbn [map fst].
      change (filter (fun p => negb (p =? 0)) [ps; pm; pi]) with (filter (fun p => negb (p =? 0)) ([ps] ++ [pm] ++ [pi])).
      rewrite !filter_app. replace (filter (fun p => negb (p =? 0)) [ps]) with [ps] by (cbn; destruct (Z.eqb_spec ps 0); [congruence|reflexivity]).
      rewrite F5. rewrite Permutation_app_comm. apply Permutation_app_tail.
      rewrite app_assoc, (Permutation_app_comm _ [ps]). apply Permutation_app_head. apply Permutation_app_comm.
Qed.
End Fill.

(** ** One line *)
Lemma w_pop_str others h os l ts : world others h (OList l (map pair_of ts) :: map str_of ts ++ os) ->
  exists p o ts' h', list_pop_first l h = Ok (p, h') /\ (p = 0 <-> o = None) /\
    match ts with [] => o = None /\ ts' = [] | t :: r => o = Some (block_of t) /\ ts' = r end /\
    world others h' (OList l (map pair_of ts') :: maybe p o ++ map str_of ts' ++ os).
Proof.
  intros W. destruct (w_pop _ _ _ _ _ W) as (h' & E & W'). destruct ts as [|[[e v] b] ts].
  - exists 0, None, [], h'. split; [exact E|]. split; [tauto|]. split; [auto|]. exact W'.
  - exists v, (Some b), ts, h'. split; [exact E|]. split.
    + split; [|discriminate]. intros ->. exfalso. apply (world_nonnull _ _ _ 0 b W'); [right; left; reflexivity|reflexivity].
    + split; [auto|]. exact W'.
Qed.

Lemma w_dupstr others h os junk a s : world others h os -> In (OStr a (as_block s)) os -> text s -> zlen s + 1 < 2 ^ 64 ->
  exists p h', h_dupstr junk a 0 h = Ok (p, h') /\ p <> 0 /\ world others h' (OStr p (as_block s) :: os).
Proof.
  intros W I T L. unfold h_dupstr. destruct (Z.eqb_spec a 0) as [E|_]; [destruct (world_nonnull _ _ _ _ _ W I E)|].
  rewrite (step_ld_slots _ _ _ _ (world_get _ _ _ _ _ W I)). change (suffix_at (as_block s) 0) with (as_block s).
  pose proof (dup_all_ok junk s [] T L) as D. unfold dup_all in D. fold (as_block s) in D.
  destruct (charstr_dupstr junk (Some (as_block s))) as [[d|]| | |]; cbn [bind] in D; try discriminate. injection D as ->.
  unfold new_string_or_null. rewrite step_lift. destruct (w_new _ _ _ (as_block s) W) as (p & h' & E & R). exists p, h'.
  split; [|exact R]. unfold new_string in E. rewrite step_lift in E. exact E.
Qed.

Lemma string_len (d : list Z) : forall fields f, In f fields -> zlen f <= zlen (join d fields).
Proof.
  induction fields as [|g fields IH]; intros f I; [destruct I|]. destruct I as [<-|I]; cbn [join].
  - destruct fields; [lia|]. rewrite !zlen_app. pose proof (zlen_nonneg d). pose proof (zlen_nonneg (join d (l :: fields))). lia.
  - destruct fields; [destruct I|]. rewrite !zlen_app. pose proof (IH f I). pose proof (zlen_nonneg d). pose proof (zlen_nonneg g). lia.
Qed.
Lemma string_text (d : list Z) : forall fields f, text (join d fields) -> In f fields -> text f.
Proof.
  induction fields as [|g fields IH]; intros f T I; [destruct I|]. destruct I as [<-|I]; cbn [join] in T.
  - destruct fields; [exact T|]. apply Forall_app in T. exact (proj1 T).
  - destruct fields; [destruct I|]. apply Forall_app in T. destruct T as (_ & T). apply Forall_app in T. apply IH; tauto.
Qed.

(** The inner part of [read_line]. *)
Definition read_fields (junk : nat -> Z) (cp_range status : list Z) (fields : list (list Z)) : res (option raw_row) :=
  range <- charstr_split_str junk cp_range (as_block [46; 46]) (u32 (-1)) ;;
  match range with
  | [] => UB
  | first :: range =>
      let last := match range with [] => first | last :: _ => last end in
      mapping <- (match fields with
                  | [] => Ok None
                  | mapping :: _ =>
                      codepoints <- charstr_split_atoms junk mapping ;;
                      cps <- read_codepoints codepoints ;;
                      Ok (Some cps)
                  end) ;;
      start <- strtol16 first ;;
      finish <- strtol16 last ;;
      status <- charstr_strip junk (Some status) ;;
      match status with
      | None => UB
      | Some status =>
          status <- c_string status ;;
          Ok (Some (s32 start, s32 finish, status, mapping))
      end
  end.

Definition short (t : list Z) : Prop := text t /\ zlen t < 2 ^ 58.

Lemma row_ok others junk table dots buffer h lf u1 u2 fs c st fparts start finish s m mb ib pre post ss os :
  block_of u1 = as_block c -> block_of u2 = as_block st -> map block_of fs = map as_block fparts ->
  short c -> short st -> Forall short fparts -> zlen buffer = 100 ->
  In (OStr dots (as_block [46; 46])) os ->
  read_fields junk (as_block c) (as_block st) (map as_block fparts) = Ok (Some (start, finish, s, m)) ->
  mapping_bytes buffer m = Ok mb ->
  match fparts, ib with
  | _ :: i :: _, Some d => charstr_strip junk (Some (as_block i)) = Ok (Some (as_block d))
  | _ :: _ :: _, None => False
  | _, Some _ => False
  | _, None => True
  end ->
  (start <= finish -> zlen pre = 3 * start) ->
  world others h (OList lf (map pair_of fs) :: map str_of fs ++ str_of u1 :: str_of u2 ::
    OStr table (pre ++ repeat 0 (3 * Z.to_nat (finish - start + 1)) ++ post) :: strs ss ++ os) ->
  exists h' fs' rows new,
    h_row junk table dots buffer lf (snd (fst u1)) (snd (fst u2)) h = Ok (tt, h') /\
    length rows = Z.to_nat (finish - start + 1) /\
    Forall (fun row => exists ps pm pi, row = [ps; pm; pi] /\ points new ps (Some s) /\ points new pm mb /\ points new pi ib) rows /\
    Permutation (map fst new) (nonnull (concat rows)) /\
    world others h' (OList lf (map pair_of fs') :: map str_of fs' ++ str_of u1 ::
      OStr table (pre ++ concat rows ++ post) :: strs (new ++ ss) ++ os).
Proof.
  intros B1 B2 BF Sc Sst SF LB ID R MB IB K W.
  destruct u1 as [[e1 a1] b1], u2 as [[e2 a2] b2]. cbn [block_of snd fst] in *. subst b1 b2.
  change (str_of (e1, a1, as_block c)) with (OStr a1 (as_block c)) in *.
  change (str_of (e2, a2, as_block st)) with (OStr a2 (as_block st)) in *.
  set (T := pre ++ repeat 0 (3 * Z.to_nat (finish - start + 1)) ++ post) in *.
  unfold h_row.
  destruct (w_pop_str _ _ _ _ _ W) as (pm & om & fs1 & h1 & E1 & N1 & C1 & W1). rewrite (bnd_Ok _ _ _ _ _ E1).
  (* idna2008 *)
  assert (M : exists pi oi fs2 h2, (if pm =? 0 then ret 0 else list_pop_first lf) h1 = Ok (pi, h2) /\ (pi = 0 <-> oi = None) /\
     oi = match fparts with _ :: i :: _ => Some (as_block i) | _ => None end /\
     world others h2 (OList lf (map pair_of fs2) :: maybe pi oi ++ maybe pm om ++ map str_of fs2 ++ OStr a1 (as_block c) ::
        OStr a2 (as_block st) :: OStr table T :: strs ss ++ os)).
  { destruct fs as [|f3 fs3].
    - destruct fparts; [|discriminate BF]. destruct C1 as (-> & ->). rewrite (proj2 N1 eq_refl). exists 0, None, [], h1.
      split; [reflexivity|]. split; [tauto|]. split; [reflexivity|]. exact W1.
    - destruct fparts as [|f3' fparts]; [discriminate BF|]. destruct C1 as (-> & ->).
      destruct (Z.eqb_spec pm 0) as [E|_]; [discriminate (proj1 N1 E)|].
      apply (world_perm _ _ _ (OList lf (map pair_of fs3) :: map str_of fs3 ++ maybe pm (Some (block_of f3)) ++ OStr a1 (as_block c) ::
        OStr a2 (as_block st) :: OStr table T :: strs ss ++ os)) in W1; [|perm].
      destruct (w_pop_str _ _ _ _ _ W1) as (pi & oi & fs2 & h2 & E2 & N2 & C2 & W2).
      exists pi, oi, fs2, h2. split; [exact E2|]. split; [exact N2|]. split.
      + cbn [map] in BF. injection BF as _ BF. destruct fs3 as [|f4 fs4], fparts as [|f4' fparts]; try discriminate BF; destruct C2 as (-> & _); [reflexivity|].
        cbn [map] in BF. injection BF as -> _. reflexivity.
      + refine (world_perm _ _ _ _ _ W2). perm. }
  destruct M as (pi & oi & fs2 & h2 & E2 & N2 & C2 & W2). rewrite (bnd_Ok _ _ _ _ _ E2).
  assert (Om : om = match fparts with f :: _ => Some (as_block f) | [] => None end).
  { destruct fs as [|f3 fs3], fparts as [|f3' fparts]; try discriminate BF; destruct C1 as (-> & _); [reflexivity|].
    cbn [map] in BF. injection BF as -> _. reflexivity. }
  clear C1 W1 E1 E2 W BF fs1.
  (* the range *)
  unfold read_fields in R.
  assert (Sm : 0 <= u32 (-1)) by (vm_compute; discriminate). assert (Sm2 : u32 (-1) < 2 ^ 32) by reflexivity.
  assert (Tdots : text [46; 46]) by (repeat constructor; lia).
  destruct Sc as (Tc & Lc). destruct Sst as (Tst & Lst).
  destruct (split_str_ok junk c [] [46; 46] [] (u32 (-1)) Tc Tdots ltac:(discriminate) Sm ltac:(lia)) as (rparts & ER & SR).
  fold (as_block c) in ER. fold (as_block [46; 46]) in ER. rewrite ER in R. cbn [bind] in R.
  destruct SR as (NE & JR & _).
  assert (SRP : Forall short rparts).
  { rewrite Forall_forall. intros f If. split.
    - apply (string_text [46; 46] rparts f); [rewrite JR; exact Tc|exact If].
    - pose proof (string_len [46; 46] rparts f If) as X. rewrite JR in X. lia. }
  assert (G1 : get h2 a1 = Some (CSlots (as_block c))).
  { apply (world_get _ _ _ _ _ W2). right. apply in_or_app; right. apply in_or_app; right. apply in_or_app; right. left; reflexivity. }
  assert (G2 : get h2 dots = Some (CSlots (as_block [46; 46]))).
  { apply (world_get _ _ _ _ _ W2). right. apply in_or_app; right. apply in_or_app; right. apply in_or_app; right.
    right. right. right. apply in_or_app; right. exact ID. }
  assert (Lb : zlen (as_block c) < 2 ^ 59) by (unfold as_block; rewrite zlen_app; change (zlen [0]) with 1; lia).
  destruct (split_str_own junk h2 a1 (as_block c) 0 dots (as_block [46; 46]) 0 (u32 (-1)) _ G1 G2 Lb Sm2 ER) as (lr & h3 & es & E3 & O3).
  rewrite (bnd_Ok _ _ _ _ _ E3).
  destruct (w_list _ _ _ _ _ _ _ W2 O3) as (rs & RA & RB & W3). rewrite <- RA in W3. clear O3 W2 E3 G1 G2.
  set (F2 := OList lf (map pair_of fs2) :: maybe pi oi ++ maybe pm om ++ map str_of fs2 ++ OStr a1 (as_block c) ::
        OStr a2 (as_block st) :: OStr table T :: strs ss ++ os) in *.
  destruct (w_pop_str _ _ _ _ _ W3) as (p1 & o1 & rs1 & h4 & E4 & N4 & C4 & W4). rewrite (bnd_Ok _ _ _ _ _ E4).
  destruct rparts as [|r1 rparts]; [congruence|]. destruct rs as [|t1 rs]; [discriminate RB|]. destruct C4 as (-> & ->).
  cbn [map] in RB, R. injection RB as Rb1 RB. rewrite Rb1 in W4. cbn [maybe] in W4.
  pose proof (Forall_inv SRP) as S1. pose proof (Forall_inv_tail SRP) as SRP'.
  apply (world_perm _ _ _ (OList lr (map pair_of rs) :: map str_of rs ++ OStr p1 (as_block r1) :: F2)) in W4; [|perm].
  destruct (w_pop_str _ _ _ _ _ W4) as (p2 & o2 & rs2 & h5 & E5 & N5 & C5 & W5). rewrite (bnd_Ok _ _ _ _ _ E5).
  (* the last one *)
  assert (M : exists p3 lst h6, (if p2 =? 0 then h_dupstr junk p1 0 else ret p2) h5 = Ok (p3, h6) /\
     as_block lst = match map as_block rparts with [] => as_block r1 | x :: _ => x end /\
     world others h6 (OList lr (map pair_of rs2) :: OStr p3 (as_block lst) :: map str_of rs2 ++ OStr p1 (as_block r1) :: F2)).
  { destruct rs as [|t2 rs].
    - destruct rparts; [|discriminate RB]. destruct C5 as (-> & ->). rewrite (proj2 N5 eq_refl). cbn [Z.eqb].
      destruct (w_dupstr _ _ _ junk p1 r1 W5) as (p3 & h6 & E6 & _ & W6).
      + right. cbn [map app maybe]. left; reflexivity.
      + exact (proj1 S1).
      + pose proof (proj2 S1). lia.
      + exists p3, r1, h6. split; [exact E6|]. split; [reflexivity|]. refine (world_perm _ _ _ _ _ W6). cbn [maybe map app]. perm.
    - destruct rparts as [|r2 rparts]; [discriminate RB|]. destruct C5 as (-> & ->).
      destruct (Z.eqb_spec p2 0) as [E|_]; [discriminate (proj1 N5 E)|]. cbn [map] in RB. injection RB as Rb2 _. rewrite Rb2 in W5.
      exists p2, r2, h5. split; [reflexivity|]. split; [reflexivity|exact W5]. }
  destruct M as (p3 & lst & h6 & E6 & EL & W6). rewrite (bnd_Ok _ _ _ _ _ E6). clear E4 E5 E6 W3 W4 W5 N4 N5 C5.
  assert (LL : match map as_block rparts with [] => as_block r1 | x :: _ => x end = as_block lst) by (symmetry; exact EL).
  cbv zeta in R. rewrite LL in R. clear LL EL.
  (* the mapping *)
  assert (M : exists buf, mapping_buffer junk buffer om = Ok buf /\
     (pm = 0 <-> mb = None) /\ match mb with Some b => dup_all junk buf = Ok (as_block b) | None => True end /\
     (n1 <- strtol16 (as_block r1) ;; n2 <- strtol16 (as_block lst) ;; status <- charstr_strip junk (Some (as_block st)) ;;
      match status with None => UB | Some status => status <- c_string status ;; Ok (Some (s32 n1, s32 n2, status, m)) end)
      = Ok (Some (start, finish, s, m))).
  { destruct fparts as [|f fparts]; cbn [map] in R; subst om.
    - cbn [bind] in R. exists buffer. split; [reflexivity|].
      assert (m = None).
      { destruct (strtol16 (as_block r1)); cbn [bind] in R; try discriminate. destruct (strtol16 (as_block lst)); cbn [bind] in R; try discriminate.
        destruct (charstr_strip junk (Some (as_block st))) as [[x|]| | |]; cbn [bind] in R; try discriminate.
        destruct (c_string x); cbn [bind] in R; try discriminate. injection R as _ _ _ <-. reflexivity. }
      subst m. cbn [mapping_bytes] in MB. injection MB as <-. split; [exact N1|]. split; [exact Logic.I|exact R].
    - cbn [mapping_buffer]. destruct (charstr_split_atoms junk (as_block f)) as [out| | |]; cbn [bind] in R |- *; try discriminate.
      destruct (read_codepoints out) as [cps| | |]; cbn [bind] in R |- *; try discriminate.
      assert (m = Some cps).
      { destruct (strtol16 (as_block r1)); cbn [bind] in R; try discriminate. destruct (strtol16 (as_block lst)); cbn [bind] in R; try discriminate.
        destruct (charstr_strip junk (Some (as_block st))) as [[x|]| | |]; cbn [bind] in R; try discriminate.
        destruct (c_string x); cbn [bind] in R; try discriminate. injection R as _ _ _ <-. reflexivity. }
      subst m. cbn [mapping_bytes] in MB. destruct (put_mapping cps buffer 0) as [[b1 q1]| | |] eqn:EP; cbn [bind] in MB |- *; try discriminate.
      destruct (wr b1 q1 0) as [b2| | |] eqn:EW; cbn [bind] in MB; try discriminate.
      destruct (c_string b2) as [mm| | |] eqn:EC; cbn [bind] in MB; try discriminate. injection MB as <-.
      exists b2. split; [reflexivity|]. split; [split; [intros X; discriminate (proj1 N1 X)|discriminate]|]. split; [|exact R].
      apply dup_c_string; [exact EC|]. unfold wr in EW. destruct (inb b1 q1) eqn:EI; [|discriminate]. injection EW as <-.
      pose proof (put_mapping_length _ _ _ _ _ EP) as LP. unfold zlen in *. rewrite upd_length; [lia|]. unfold inb, zlen in EI. lia. }
  destruct M as (buf & EB & Nmb & Dmb & R').
  assert (Lm : match om with Some b => zlen b < 2 ^ 59 | None => True end).
  { subst om. destruct fparts as [|f fparts]; [exact Logic.I|]. pose proof (proj2 (Forall_inv SF)).
    unfold as_block. rewrite zlen_app. change (zlen [0]) with 1. lia. }
  set (W6o := OList lr (map pair_of rs2) :: OStr p3 (as_block lst) :: map str_of rs2 ++ OStr p1 (as_block r1) :: F2) in *.
  assert (Im : incl (maybe pm om) W6o).
  { intros o Ho. right. right. apply in_or_app; right. right. right. apply in_or_app; right. apply in_or_app; left. exact Ho. }
  destruct (w_mapping others junk h6 W6o pm om buffer buf W6 Im N1 Lm EB) as (h7 & E7 & W7). rewrite (bnd_Ok _ _ _ _ _ E7).
  (* the numbers *)
  destruct (strtol16 (as_block r1)) as [n1| | |] eqn:S1e; cbn [bind] in R'; try discriminate.
  destruct (strtol16 (as_block lst)) as [n2| | |] eqn:S2e; cbn [bind] in R'; try discriminate.
  destruct (charstr_strip junk (Some (as_block st))) as [[x|]| | |] eqn:Se; cbn [bind] in R'; try discriminate.
  destruct (strip_ok junk st [] Tst ltac:(lia)) as (ms & Em & Sms). fold (as_block st) in Em. rewrite Se in Em. injection Em as ->.
  assert (Tms : text ms).
  { destruct Sms as (w1 & w2 & -> & _). apply Forall_app in Tst. destruct Tst as (_ & Tst). apply Forall_app in Tst. exact (proj1 Tst). }
  unfold as_block in R' at 1. rewrite (c_string_ok ms [] Tms) in R'. cbn [bind] in R'. injection R' as X1 X2 X3. subst ms.
  rewrite (step_ld_slots _ _ _ (as_block r1)).
  2: { apply (world_get _ _ _ _ _ W7). right. right. apply in_or_app; right. left; reflexivity. }
  rewrite S1e, step_lift. rewrite (step_ld_slots _ _ _ (as_block lst)).
  2: { apply (world_get _ _ _ _ _ W7). right. left; reflexivity. }
  rewrite S2e, step_lift. rewrite X1, X2.
  (* the entries *)
  set (os7 := OList lr (map pair_of rs2) :: OStr p3 (as_block lst) :: map str_of rs2 ++ OStr p1 (as_block r1) ::
     OList lf (map pair_of fs2) :: maybe pi oi ++ maybe pm om ++ map str_of fs2 ++ OStr a1 (as_block c) ::
        OStr a2 (as_block st) :: os).
  apply (world_perm _ _ _ (OStr table T :: strs ss ++ os7)) in W7; [|unfold W6o, F2, os7; perm].
  assert (M : exists h' rows new, h_fill junk (Z.to_nat (finish - start + 1)) table start a2 pm pi buf h7 = Ok (tt, h') /\
    length rows = Z.to_nat (finish - start + 1) /\
    world others h' (OStr table (pre ++ concat rows ++ post) :: strs (new ++ ss) ++ os7) /\
    Forall (fun row => exists ps pm pi, row = [ps; pm; pi] /\ points new ps (Some s) /\ points new pm mb /\ points new pi ib) rows /\
    Permutation (map fst new) (nonnull (concat rows))).
  { destruct (Z_le_gt_dec start finish) as [Hle|Hgt].
    - apply (fill_ok others junk table buf os7 a2 pm pi (as_block st) s mb ib oi); try assumption.
      + unfold os7. right. right. apply in_or_app; right. right. right. apply in_or_app; right. apply in_or_app; right. apply in_or_app; right.
        right. left; reflexivity.
      + unfold os7. intros o Ho. right. right. apply in_or_app; right. right. right. apply in_or_app; left. exact Ho.
      + subst oi. destruct fparts as [|f [|f4 fparts]], ib; try contradiction; assumption.
      + apply K, Hle.
    - unfold T in W7. replace (Z.to_nat (finish - start + 1)) with 0%nat in W7 |- * by lia.
      exists h7, [], []. split; [reflexivity|]. split; [reflexivity|]. split; [exact W7|]. split; constructor. }
  destruct M as (h8 & rows & new & E8 & L8 & W8 & R8 & P8). rewrite (bnd_Ok _ _ _ _ _ E8).
  set (Z8 := OStr table (pre ++ concat rows ++ post) :: strs (new ++ ss) ++ os) in *.
  (* the release *)
  apply (world_perm _ _ _ (OStr p1 (as_block r1) :: OStr p3 (as_block lst) :: OList lr (map pair_of rs2) :: map str_of rs2 ++
    maybe pi oi ++ maybe pm om ++ OStr a2 (as_block st) :: OList lf (map pair_of fs2) :: map str_of fs2 ++ OStr a1 (as_block c) :: Z8)) in W8;
    [|unfold os7, Z8; perm].
  destruct (w_free _ _ _ _ _ W8) as (h9 & E9 & W9). rewrite (bnd_Ok _ _ _ _ _ E9).
  destruct (w_free _ _ _ _ _ W9) as (h10 & E10 & W10). rewrite (bnd_Ok _ _ _ _ _ E10).
  destruct (w_free_all _ _ _ _ _ W10) as (h11 & E11 & W11). rewrite (bnd_Ok _ _ _ _ _ E11).
  destruct (w_destroy _ _ _ _ _ W11) as (h12 & E12 & W12). rewrite (bnd_Ok _ _ _ _ _ E12).
  destruct (w_free_null _ _ _ _ _ W12 N2) as (h13 & E13 & W13). rewrite (bnd_Ok _ _ _ _ _ E13).
  destruct (w_free_null _ _ _ _ _ W13 N1) as (h14 & E14 & W14). rewrite (bnd_Ok _ _ _ _ _ E14).
  destruct (w_free _ _ _ _ _ W14) as (h15 & E15 & W15).
  exists h15, fs2, rows, new. split; [exact E15|]. split; [exact L8|]. split; [exact R8|]. split; [exact P8|exact W15].
Qed.

Lemma is_list_of others h l es os : world others h (OList l es :: os) -> is_list h l es.
Proof. intros (_ & W2 & _). exact (Forall_inv W2). Qed.

Lemma strip_string junk st : short st -> exists d, charstr_strip junk (Some (as_block st)) = Ok (Some (as_block d)) /\ text d.
Proof.
  intros (T & L). destruct (strip_ok junk st [] T ltac:(lia)) as (d & E & S). exists d. split; [exact E|].
  destruct S as (w1 & w2 & -> & _). apply Forall_app in T. destruct T as (_ & T). apply Forall_app in T. exact (proj1 T).
Qed.

Definition good_row (new : list (Z * list Z)) (s : list Z) (mb ib : option (list Z)) (row : list Z) : Prop :=
  exists ps pm pi, row = [ps; pm; pi] /\ points new ps (Some s) /\ points new pm mb /\ points new pi ib.

Lemma line_ok others junk table dots buffer h la line T ss os o :
  short line -> zlen buffer = 100 -> In (OStr la (as_block line)) os -> In (OStr dots (as_block [46; 46])) os ->
  read_line junk (as_block line) = Ok o -> world others h (OStr table T :: strs ss ++ os) ->
  match o with
  | None => exists h', h_line junk table dots buffer la h = Ok (tt, h') /\ world others h' (OStr table T :: strs ss ++ os)
  | Some (start, finish, s, m) => forall mb pre post, mapping_bytes buffer m = Ok mb ->
      (start <= finish -> zlen pre = 3 * start) -> T = pre ++ repeat 0 (3 * Z.to_nat (finish - start + 1)) ++ post ->
      exists ib h' rows new, idna2008_of junk (as_block line) = Ok ib /\
        h_line junk table dots buffer la h = Ok (tt, h') /\ length rows = Z.to_nat (finish - start + 1) /\
        Forall (good_row new s mb ib) rows /\ Permutation (map fst new) (nonnull (concat rows)) /\
        world others h' (OStr table (pre ++ concat rows ++ post) :: strs (new ++ ss) ++ os)
  end.
Proof.
  intros (TL & LL) LB IL ID R W. unfold read_line in R.
  destruct (split_ok junk line [] 35 1 TL ltac:(lia) ltac:(lia) ltac:(lia)) as (parts & EP & JP & CP & _).
  fold (as_block line) in EP. rewrite EP in R. cbn [bind] in R.
  assert (SP : Forall short parts).
  { rewrite Forall_forall. intros f If. split.
    - apply (string_text [35] parts f); [rewrite JP; exact TL|exact If].
    - pose proof (string_len [35] parts f If) as X. rewrite JP in X. lia. }
  destruct parts as [|body parts]; [discriminate R|]. cbn [map] in R.
  pose proof (Forall_inv SP) as (Tb & Lb).
  assert (Sm : 0 <= u32 (-1)) by (vm_compute; discriminate).
  destruct (split_ok junk body [] 59 (u32 (-1)) Tb ltac:(lia) Sm ltac:(lia)) as (fields & EF & JF & CF & _).
  fold (as_block body) in EF. rewrite EF in R. cbn [bind] in R.
  assert (SF : Forall short fields).
  { rewrite Forall_forall. intros f If. split.
    - apply (string_text [59] fields f); [rewrite JF; exact Tb|exact If].
    - pose proof (string_len [59] fields f If) as X. rewrite JF in X. lia. }
  (* the lists *)
  assert (LEN : forall x, zlen x < 2 ^ 58 -> zlen (as_block x) < 2 ^ 59).
  { intros x Hx. unfold as_block. rewrite zlen_app. change (zlen [0]) with 1. lia. }
  set (R0 := OStr table T :: strs ss ++ os) in *.
  assert (IL0 : In (OStr la (as_block line)) R0) by (right; apply in_or_app; right; exact IL).
  destruct (split_own junk h la (as_block line) 0 35 1 _ (world_get _ _ _ _ _ W IL0) (LEN _ LL) EP) as (lp & h1 & es & E1 & O1).
  destruct (w_list _ _ _ _ _ _ _ W O1) as (ps & PA & PB & W1). rewrite <- PA in W1. clear O1.
  destruct ps as [|[[e0 v0] b0] ps]; [discriminate PB|]. cbn [map block_of snd] in PB. injection PB as -> PB.
  pose proof (is_list_of _ _ _ _ _ W1) as IL1.
  set (L1 := OList lp (map pair_of ((e0, v0, as_block body) :: ps)) :: map str_of ((e0, v0, as_block body) :: ps) ++ R0) in *.
  assert (Iv : In (OStr v0 (as_block body)) L1) by (right; left; reflexivity).
  destruct (split_own junk h1 v0 (as_block body) 0 59 (u32 (-1)) _ (world_get _ _ _ _ _ W1 Iv) (LEN _ Lb) EF) as (lf & h2 & es2 & E2 & O2).
  destruct (w_list _ _ _ _ _ _ _ W1 O2) as (us & UA & UB & W2). rewrite <- UA in W2. clear O2.
  destruct (w_pop_str _ _ _ _ _ W2) as (p1 & o1 & us1 & h3 & E3 & N3 & C3 & W3).
  assert (HL : h_line junk table dots buffer la h = (if p1 =? 0 then fun _ => Abort else
      let! status := list_pop_first lf in
      do! (if status =? 0 then ret tt else h_row junk table dots buffer lf p1 status) in
      do! free p1 in do! list_foreach lf free in do! destroy_list lf in do! list_foreach lp free in destroy_list lp) h3).
  { unfold h_line. rewrite (bnd_Ok _ _ _ _ _ E1). rewrite (bnd_Ok _ _ _ _ _ (get_first_ok _ _ _ IL1)).
    cbn [map pair_of fst hd_addr] in IL1 |- *.
    rewrite (bnd_Ok _ _ _ _ _ (get_value_ok h1 lp [] e0 v0 (map pair_of ps) IL1)).
    rewrite (bnd_Ok _ _ _ _ _ E2). rewrite (bnd_Ok _ _ _ _ _ E3). reflexivity. }
  destruct us as [|u1 us]; [destruct fields; [discriminate R|discriminate UB]|]. destruct C3 as (-> & ->).
  destruct fields as [|c fields]; [discriminate UB|]. cbn [map] in UB. injection UB as Ub1 UB.
  destruct (Z.eqb_spec p1 0) as [X|NP1]; [discriminate (proj1 N3 X)|].
  rewrite Ub1 in W3. cbn [maybe] in W3.
  apply (world_perm _ _ _ (OList lf (map pair_of us) :: map str_of us ++ OStr p1 (as_block c) :: L1)) in W3; [|perm].
  destruct (w_pop_str _ _ _ _ _ W3) as (p2 & o2 & us2 & h4 & E4 & N4 & C4 & W4).
  rewrite (bnd_Ok _ _ _ _ _ E4) in HL.
  (* the end *)
  assert (FIN : forall h5 us5 R5,
    world others h5 (OList lf (map pair_of us5) :: map str_of us5 ++ OStr p1 (as_block c) ::
      OList lp (map pair_of ((e0, v0, as_block body) :: ps)) :: map str_of ((e0, v0, as_block body) :: ps) ++ R5) ->
    exists h', (do! free p1 in do! list_foreach lf free in do! destroy_list lf in do! list_foreach lp free in destroy_list lp) h5 = Ok (tt, h') /\
      world others h' R5).
  { intros h5 us5 R5 W5.
    apply (world_perm _ _ _ (OStr p1 (as_block c) :: OList lf (map pair_of us5) :: map str_of us5 ++
      OList lp (map pair_of ((e0, v0, as_block body) :: ps)) :: map str_of ((e0, v0, as_block body) :: ps) ++ R5)) in W5; [|perm].
    destruct (w_free _ _ _ _ _ W5) as (h6 & E6 & W6). rewrite (bnd_Ok _ _ _ _ _ E6).
    destruct (w_free_all _ _ _ _ _ W6) as (h7 & E7 & W7). rewrite (bnd_Ok _ _ _ _ _ E7).
    destruct (w_destroy _ _ _ _ _ W7) as (h8 & E8 & W8). rewrite (bnd_Ok _ _ _ _ _ E8).
    destruct (w_free_all _ _ _ _ _ W8) as (h9 & E9 & W9). rewrite (bnd_Ok _ _ _ _ _ E9).
    exact (w_destroy _ _ _ _ _ W9). }
  destruct us as [|u2 us].
  - destruct fields; [|discriminate UB]. destruct C4 as (-> & ->). injection R as <-. rewrite (proj2 N4 eq_refl) in HL. cbn [Z.eqb] in HL.
    erewrite bnd_Ok in HL by reflexivity. destruct (FIN _ _ _ W4) as (h' & E' & W'). exists h'. split; [rewrite HL; exact E'|exact W'].
  - destruct fields as [|st fields]; [discriminate UB|]. destruct C4 as (-> & ->). cbn [map] in UB, R. injection UB as Ub2 UB.
    destruct (Z.eqb_spec p2 0) as [X|NP2]; [discriminate (proj1 N4 X)|].
    rewrite Ub2 in W4. cbn [maybe] in W4.
    assert (R' : read_fields junk (as_block c) (as_block st) (map as_block fields) = Ok o) by exact R. clear R.
    pose proof (Forall_inv SF) as Sc. pose proof (Forall_inv_tail SF) as SF1. pose proof (Forall_inv SF1) as Sst. pose proof (Forall_inv_tail SF1) as SF2.
    destruct o as [[[[start finish] s] m]|].
    2: { exfalso. clear - R'. unfold read_fields in R'.
         destruct (charstr_split_str junk (as_block c) (as_block [46; 46]) (u32 (-1))) as [[|x y]| | |]; cbn [bind] in R'; try discriminate.
         destruct (map as_block fields) as [|f fs].
         - cbn [bind] in R'. destruct (strtol16 x); cbn [bind] in R'; try discriminate. destruct (strtol16 _); cbn [bind] in R'; try discriminate.
           destruct (charstr_strip junk _) as [[z|]| | |]; cbn [bind] in R'; try discriminate. destruct (c_string z); discriminate.
         - destruct (charstr_split_atoms junk f) as [w| | |]; cbn [bind] in R'; try discriminate.
           destruct (read_codepoints w); cbn [bind] in R'; try discriminate.
           destruct (strtol16 x); cbn [bind] in R'; try discriminate. destruct (strtol16 _); cbn [bind] in R'; try discriminate.
           destruct (charstr_strip junk _) as [[z|]| | |]; cbn [bind] in R'; try discriminate. destruct (c_string z); discriminate. }
    intros mb pre post MB K ET.
    (* idna2008 *)
    assert (IB : exists ib, idna2008_of junk (as_block line) = Ok ib /\
      match fields, ib with
      | _ :: i :: _, Some d => charstr_strip junk (Some (as_block i)) = Ok (Some (as_block d))
      | _ :: _ :: _, None => False
      | _, Some _ => False
      | _, None => True
      end).
    { unfold idna2008_of. rewrite EP. cbn [bind map]. rewrite EF. cbn [bind map].
      destruct fields as [|f3 [|f4 fields]]; cbn [map]; [exists None; split; [reflexivity|exact Logic.I]| exists None; split; [reflexivity|exact Logic.I]|].
      destruct (strip_string junk f4 (Forall_inv (Forall_inv_tail SF2))) as (d & Ed & Td). rewrite Ed. cbn [bind].
      pose proof (c_string_ok d [] Td) as Cd. fold (as_block d) in Cd. rewrite Cd. exists (Some d). split; [reflexivity|reflexivity || exact Ed]. }
    destruct IB as (ib & EI & CI).
    apply (world_perm _ _ _ (OList lf (map pair_of us) :: map str_of us ++ str_of (0, p1, as_block c) :: str_of (0, p2, as_block st) ::
      OStr table (pre ++ repeat 0 (3 * Z.to_nat (finish - start + 1)) ++ post) :: strs ss ++
        (OList lp (map pair_of ((e0, v0, as_block body) :: ps)) :: map str_of ((e0, v0, as_block body) :: ps) ++ os))) in W4.
    2: { change (str_of (0, p1, as_block c)) with (OStr p1 (as_block c)). change (str_of (0, p2, as_block st)) with (OStr p2 (as_block st)).
         unfold L1, R0. rewrite <- ET. perm. }
    assert (ID4 : In (OStr dots (as_block [46; 46])) (OList lp (map pair_of ((e0, v0, as_block body) :: ps)) :: map str_of ((e0, v0, as_block body) :: ps) ++ os)).
    { right. apply in_or_app; right. exact ID. }
    destruct (row_ok others junk table dots buffer h4 lf (0, p1, as_block c) (0, p2, as_block st) us c st fields start finish s m mb ib pre post ss _
      eq_refl eq_refl UB Sc Sst SF2 LB ID4 R' MB CI K W4) as (h5 & us5 & rows & new & E5 & L5 & R5 & P5 & W5).
    cbn [fst snd] in E5. rewrite (bnd_Ok _ _ _ _ _ E5) in HL.
    apply (world_perm _ _ _ (OList lf (map pair_of us5) :: map str_of us5 ++ OStr p1 (as_block c) ::
      OList lp (map pair_of ((e0, v0, as_block body) :: ps)) :: map str_of ((e0, v0, as_block body) :: ps) ++
      (OStr table (pre ++ concat rows ++ post) :: strs (new ++ ss) ++ os))) in W5.
    2: { change (str_of (0, p1, as_block c)) with (OStr p1 (as_block c)). perm. }
    destruct (FIN _ _ _ W5) as (h' & E' & W'). exists ib, h', rows, new. split; [exact EI|]. split; [rewrite HL; exact E'|].
    split; [exact L5|]. split; [exact R5|]. split; [exact P5|exact W'].
Qed.
