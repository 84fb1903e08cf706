(** Proofs about the program test/charstr_idna_test.c. *)
From Verif Require Import Base CMem Heap ListModel ListSpec ListProofs CharstrModel CharstrSpec CharstrProofs NormModel PunyModel PunySpec IdnaTabModel IdnaEncodeModel IdnaEncodeSpec IdnaModel IdnaTextModel IdnaTextSpec IdnaTextProofs.
From Verif Require Import ObjModel ObjBase OwnModel OwnSpec OwnProofs NewMemModel GenMemModel GenMem GenMemFile IdnaEncodeProps TestIdnaModel TestIdnaSpec.
From Coq Require Import Permutation.

Section Idna.
Context (junk : nat -> Z) (r : recomposer) (hr : hangul_recomposer) (errno : Z).
Notation encode := (encode junk r hr errno).
Notation encodes_line := (encodes_line junk r hr errno).
Notation encodes_file := (encodes_file junk r hr errno).

Lemma join_dots_text es : Forall (fun e => Forall host_char e) es -> text (join_dots es).
Proof.
  assert (H : forall e, Forall host_char e -> text e) by (intros e; apply Forall_impl; unfold host_char; lia).
  induction 1 as [|e es He _ IH]; [constructor|]. cbn [join_dots]. destruct es; [apply H; exact He|]. apply Forall_app. split; [apply H; exact He|].
  constructor; [lia|exact IH].
Qed.
Lemma encode_string s o : short s -> zlen (r_ccs r) = 100 -> charstr_idna_encode junk r hr errno (s ++ [0]) = Ok o -> exists o', encode s o' /\ o = option_map (fun d => d ++ [0]) o'.
Proof.
  intros (T & L) Rs E. destruct o as [out|]; [|exists None; split; [split; [exact E|exact Logic.I]|reflexivity]].
  assert (D : ascii s \/ ~ ascii s).
  { destruct (Forall_dec (fun c => c < 128) (fun c => Z_lt_dec c 128) s); [left|right]; assumption. }
  destruct D as [A|A].
  - pose proof (C66_ascii junk r hr errno s [] T A ltac:(lia)) as E'. rewrite E in E'. injection E' as ->. exists (Some (map ascii_lower s)). split; [|reflexivity].
    split; [exact E|]. apply Forall_map. revert T. apply Forall_impl. intros c. unfold ascii_lower. destruct ((65 <=? c) && (c <=? 90)) eqn:X; lia.
  - destruct (C63_wellformed_partial junk r hr errno s [] out T A ltac:(lia) Rs E) as (name & es & -> & (_ & _ & Ej) & F & _).
    exists (Some name). split; [|reflexivity]. split; [exact E|]. rewrite Ej. apply join_dots_text. eapply Forall_impl; [|exact F]. intros e He. apply He.
Qed.

(** * The seven fields *)
(** The pointers [ps] are NULL or those of the strings [ds]. *)
Inductive pointing : list Z -> list (option (list Z)) -> list obj -> Prop :=
| Pt_nil : pointing [] [] []
| Pt_null ps ds os : pointing ps ds os -> pointing (0 :: ps) (None :: ds) os
| Pt_str p d ps ds os : p <> 0 -> pointing ps ds os -> pointing (p :: ps) (Some d :: ds) (OStr p (as_block d) :: os).

Fixpoint up_to (n : nat) (ds : list (list Z)) : list (option (list Z)) :=
  match n, ds with
  | O, _ => []
  | S n, [] => None :: up_to n []
  | S n, d :: ds => Some d :: up_to n ds
  end.

Lemma next_fields_ok others l n : forall ts fields h os,
  world others h (OList l (map pair_of ts) :: map str_of ts ++ os) -> map block_of ts = map as_block fields -> Forall short fields ->
  exists ps ds ns ts' h', next_fields junk n l h = Ok (ps, h') /\
    Forall2 (fun f d => charstr_strip junk (Some (as_block f)) = Ok (Some (as_block d))) fields ds /\
    pointing ps (up_to n ds) ns /\ world others h' (OList l (map pair_of ts') :: map str_of ts' ++ ns ++ os).
Proof.
  induction n as [|n IH]; intros ts fields h os W B S.
  - assert (D : exists ds, Forall2 (fun f d => charstr_strip junk (Some (as_block f)) = Ok (Some (as_block d))) fields ds).
    { clear - S. induction S as [|f fields Sf _ (ds & IH)]; [exists []; constructor|]. destruct (strip_string junk f Sf) as (d & E & _). exists (d :: ds). constructor; assumption. }
    destruct D as (ds & D). exists [], ds, [], ts, h. split; [reflexivity|]. split; [exact D|]. split; [destruct ds; constructor|exact W].
  - cbn [next_fields]. destruct (w_pop_str _ _ _ _ _ W) as (p & o & ts1 & h1 & E1 & N1 & C1 & W1). rewrite (bnd_Ok _ _ _ _ _ E1). unfold idna_stripped. rewrite bnd_assoc.
    destruct ts as [|t ts].
    + destruct C1 as (-> & ->). rewrite (proj2 N1 eq_refl). destruct fields; [|discriminate B].
      assert (E2 : h_strip junk 0 0 h1 = Ok (0, h1)) by reflexivity. rewrite (bnd_Ok _ _ _ _ _ E2). cbn [free_or_null Z.eqb]. rewrite bnd_assoc, step_ret, step_ret.
      destruct (IH [] [] h1 os W1 eq_refl (Forall_nil _)) as (ps & ds & ns & ts' & h' & E3 & D & Pt & W3). inversion D; subst.
      rewrite (bnd_Ok _ _ _ _ _ E3). exists (0 :: ps), [], ns, ts', h'. split; [reflexivity|]. split; [constructor|]. split; [constructor; exact Pt|exact W3].
    + destruct C1 as (-> & ->). destruct fields as [|f fields]; [discriminate B|]. cbn [map] in B. injection B as Bt B. rewrite Bt in W1. cbn [maybe] in W1.
      inversion S as [|? ? Sf S']; subst. destruct (strip_string junk f Sf) as (d & Ed & _).
      assert (Ip : In (OStr p (as_block f)) (OList l (map pair_of ts) :: [OStr p (as_block f)] ++ map str_of ts ++ os)) by (right; left; reflexivity).
      destruct (w_strip _ _ _ junk p (as_block f) (as_block d) W1 Ip Ed) as (q & h2 & E2 & Nq & W2). rewrite (bnd_Ok _ _ _ _ _ E2).
      assert (W2' : world others h2 (maybe p (Some (as_block f)) ++ OList l (map pair_of ts) :: map str_of ts ++ OStr q (as_block d) :: os)).
      { refine (world_perm _ _ _ _ _ W2). cbn [maybe app]. perm. }
      destruct (w_free_null _ _ _ p (Some (as_block f)) W2') as (h3 & E3 & W3); [rewrite N1; split; discriminate|].
      rewrite bnd_assoc, (bnd_Ok _ _ _ _ _ E3), step_ret.
      destruct (IH ts fields h3 _ W3 B S') as (ps & ds & ns & ts' & h' & E4 & D & Pt & W4). rewrite (bnd_Ok _ _ _ _ _ E4).
      exists (q :: ps), (d :: ds), (OStr q (as_block d) :: ns), ts', h'. split; [reflexivity|]. split; [constructor; assumption|]. split; [constructor; assumption|].
      refine (world_perm _ _ _ _ _ W4). perm.
Qed.
Lemma free_fields_ok others os ps ds ns : pointing ps ds ns -> forall h, world others h (ns ++ os) -> exists h', free_fields ps h = Ok (tt, h') /\ world others h' os.
Proof.
  induction 1 as [|ps ds ns Pt IH|p d ps ds ns Np Pt IH]; intros h W; cbn [free_fields].
  - exists h. auto.
  - cbn [free_or_null Z.eqb]. rewrite step_ret. apply IH. exact W.
  - destruct (w_free_null others h (ns ++ os) p (Some (as_block d)) W) as (h1 & E1 & W1); [split; [intros X; contradiction|discriminate]|].
    rewrite (bnd_Ok _ _ _ _ _ E1). apply IH. exact W1.
Qed.

(** * The test *)
Lemma first_byte_ok h p d : get h p = Some (CSlots (as_block d)) -> text d -> exists c, first_byte p h = Ok (c, h) /\ ((c =? 0) = match d with [] => true | _ => false end).
Proof.
  intros G T. unfold first_byte. rewrite (step_ld_slots _ _ _ _ G). destruct d as [|c d]; [exists 0; split; reflexivity|].
  exists c. split; [reflexivity|]. inversion T; subst. lia.
Qed.
Lemma w_encode others h os a s o : world others h os -> In (OStr a (as_block s)) os -> encode s o ->
  exists p h', h_charstr_idna_encode junk r hr errno a 0 h = Ok (p, h') /\ (p = 0 <-> option_map as_block o = None) /\ world others h' (maybe p (option_map as_block o) ++ os).
Proof.
  intros W I (E & _). destruct (idna_encode_own idna_library junk r hr errno h a (as_block s) 0 _ (world_get _ _ _ _ _ W I) E) as (p & h' & E1 & N1).
  exists p, h'. split; [exact E1|]. destruct o as [d|]; cbn [option_map new_or_null maybe] in *.
  - destruct N1 as (Np & G & G' & S). split; [split; [intros X; contradiction|discriminate]|]. apply (world_change others h h' [] [OStr p (as_block d)] os W).
    + constructor; [exact G'|constructor].
    + constructor; [intros []|constructor].
    + intros x [<-|[]] _. exact G.
    + intros x [].
    + intros x _ Hx. apply S. exact Hx.
  - destruct N1 as (-> & S). split; [split; reflexivity|]. destruct W as (W1 & W2 & W3 & W4). split; [exact W1|]. split; [|split; [exact W3|]].
    + revert W2. apply Forall_impl. intros ob. apply holds_frame. intros x _. apply S.
    + intros x N. rewrite S. exact (W4 x N).
Qed.
Lemma idna_test_ok others h os ps pu pn s u n o : world others h os -> In (OStr ps (as_block s)) os -> In (OStr pu (as_block u)) os -> In (OStr pn (as_block n)) os ->
  text s -> text u -> text n -> encode s o ->
  exists v h', idna_test junk r hr errno ps pu pn h = Ok (v, h') /\ world others h' os /\ (v = true <-> o = None \/ o = Some (expected s u n)).
Proof.
  intros W Is Iu In_ Ts Tu Tn En. unfold idna_test.
  destruct (first_byte_ok h pn n (world_get _ _ _ _ _ W In_) Tn) as (c1 & E1 & X1). rewrite (bnd_Ok _ _ _ _ _ E1), X1. cbv zeta.
  set (p1 := if match n with [] => true | _ => false end then pu else pn). set (d1 := match n with [] => u | _ => n end).
  assert (I1 : In (OStr p1 (as_block d1)) os /\ text d1) by (subst p1 d1; destruct n; auto). destruct I1 as [I1 T1].
  destruct (first_byte_ok h p1 d1 (world_get _ _ _ _ _ W I1) T1) as (c2 & E2 & X2). rewrite (bnd_Ok _ _ _ _ _ E2), X2. cbv zeta.
  set (p2 := if match d1 with [] => true | _ => false end then ps else p1).
  assert (I2 : In (OStr p2 (as_block (expected s u n))) os /\ text (expected s u n)) by (subst p2 p1 d1; destruct n, u; cbn [expected]; auto). destruct I2 as [I2 T2].
  destruct (w_encode others h os ps s o W Is En) as (p & h1 & E3 & N3 & W3). rewrite (bnd_Ok _ _ _ _ _ E3).
  assert (V : exists v, (if p =? 0 then ret true else let! a := ld_slots p in let! b := ld_slots p2 in lift (strcmp_eq a b)) h1 = Ok (v, h1) /\ (v = true <-> o = None \/ o = Some (expected s u n))).
  { destruct o as [d|]; cbn [option_map maybe] in *.
    - destruct (Z.eqb_spec p 0) as [X|_]; [discriminate (proj1 N3 X)|].
      rewrite (step_ld_slots _ _ _ _ (world_get _ _ _ p (as_block d) W3 (or_introl eq_refl))).
      rewrite (step_ld_slots _ _ _ _ (world_get _ _ _ p2 (as_block (expected s u n)) W3 (or_intror I2))).
      destruct (strcmp_eq_ok d (expected s u n) [] [] (proj2 En) T2) as (v & Ev & Hv). exists v. unfold as_block, lift. rewrite Ev. split; [reflexivity|]. rewrite Hv.
      split; [intros ->; right; reflexivity|intros [X|X]; [discriminate|congruence]].
    - rewrite (proj2 N3 eq_refl). exists true. split; [reflexivity|]. tauto. }
  destruct V as (v & E4 & Hv). rewrite (bnd_Ok _ _ _ _ _ E4).
  destruct (w_free_null _ _ _ _ _ W3 N3) as (h2 & E5 & W5). rewrite (bnd_Ok _ _ _ _ _ E5). exists v, h2. split; [reflexivity|]. auto.
Qed.

(** * A line *)
Lemma pointing_in ps ds ns : pointing ps ds ns -> forall i d, nth i ds None = Some d -> nth i ps 0 <> 0 /\ In (OStr (nth i ps 0) (as_block d)) ns.
Proof.
  induction 1 as [|ps ds ns Pt IH|p e ps ds ns Np Pt IH]; intros i d E.
  - destruct i; discriminate.
  - destruct i as [|i]; [discriminate|]. apply IH. exact E.
  - destruct i as [|i]; [injection E as ->; split; [exact Np|left; reflexivity]|]. destruct (IH i d E) as [A B]. split; [exact A|right; exact B].
Qed.
Lemma pointing_null ps ds ns : pointing ps ds ns -> forall i, nth i ds None = None -> nth i ps 0 = 0.
Proof.
  induction 1 as [|ps ds ns Pt IH|p e ps ds ns Np Pt IH]; intros i E.
  - destruct i; reflexivity.
  - destruct i as [|i]; [reflexivity|]. apply IH. exact E.
  - destruct i as [|i]; [discriminate|]. apply IH. exact E.
Qed.
Lemma short_parts d parts s : join d parts = s -> short s -> Forall short parts.
Proof.
  intros J (T & L). rewrite Forall_forall. intros f If. split.
  - apply (string_text d parts f); [rewrite J; exact T|exact If].
  - pose proof (string_len d parts f If) as X. rewrite J in X. lia.
Qed.
Context (Rs : zlen (r_ccs r) = 100).
Lemma line_ok others h la line os : short line -> encodes_line line -> In (OStr la (as_block line)) os -> world others h os ->
  exists v h', idna_line junk r hr errno la h = Ok (v, h') /\ world others h' os /\ line_says encode line v.
Proof.
  intros SL EL IL W. pose proof SL as (TL & LL).
  destruct (split_ok junk line [] 35 1 TL ltac:(lia) ltac:(lia) ltac:(lia)) as (parts & EP & SP). fold (as_block line) in EP.
  pose proof (short_parts _ _ _ (proj1 SP) SL) as SHP.
  destruct parts as [|body parts]; [exfalso; destruct SP as (_ & C & _); assert (0 <= count 35 line) by (clear; induction line as [|c l IH]; cbn [count]; [|destruct (c =? 35)]; lia); change (zlen (@nil (list Z))) with 0 in C; lia|].
  pose proof (Forall_inv SHP) as SB. pose proof SB as (Tb & Lb). assert (Sm : u32 (-1) = 2 ^ 32 - 1) by reflexivity.
  destruct (split_ok junk body [] 59 (u32 (-1)) Tb ltac:(lia) ltac:(lia) ltac:(lia)) as (fields & EF & SF). fold (as_block body) in EF.
  pose proof (short_parts _ _ _ (proj1 SF) SB) as SHF. rewrite Sm in SF.
  assert (LEN : forall x, zlen x < 2 ^ 58 -> zlen (as_block x) < 2 ^ 59).
  { intros x Hx. unfold as_block. rewrite zlen_app. change (zlen [0]) with 1. lia. }
  destruct (split_own junk h la (as_block line) 0 35 1 _ (world_get _ _ _ _ _ W IL) (LEN _ LL) EP) as (lp & h1 & es & E1 & O1).
  destruct (w_list _ _ _ _ _ _ _ W O1) as (ps & PA & PB & W1). rewrite <- PA in W1. clear O1.
  destruct ps as [|[[e0 v0] b0] ps]; [discriminate PB|]. cbn [map block_of snd] in PB. injection PB as -> PB.
  pose proof (is_list_of _ _ _ _ _ W1) as IL1.
  set (L1 := OList lp (map pair_of ((e0, v0, as_block body) :: ps)) :: map str_of ((e0, v0, as_block body) :: ps) ++ os) in *.
  assert (Iv : In (OStr v0 (as_block body)) L1) by (right; left; reflexivity).
  destruct (split_own junk h1 v0 (as_block body) 0 59 (u32 (-1)) _ (world_get _ _ _ _ _ W1 Iv) (LEN _ Lb) EF) as (lf & h2 & es2 & E2 & O2).
  destruct (w_list _ _ _ _ _ _ _ W1 O2) as (us & UA & UB & W2). rewrite <- UA in W2. clear O2.
  destruct (next_fields_ok others lf 7 us fields h2 L1 W2 UB SHF) as (qs & ds & ns & us' & h3 & E3 & D & Pt & W3).
  assert (ST : Forall2 (stripped code_white) fields ds).
  { clear - D SHF. induction D as [|f d fields ds Ed _ IH]; [constructor|]. inversion SHF as [|? ? (T & L) S']; subst. constructor; [|apply IH; exact S'].
    destruct (strip_ok junk f [] T ltac:(lia)) as (m & Em & Sm). unfold as_block in Ed at 1. rewrite Em in Ed. injection Ed as Ed. unfold as_block in Ed. apply app_inj_tail in Ed. destruct Ed as [<- _]. exact Sm. }
  assert (TD : Forall short ds).
  { clear - ST SHF. induction ST as [|f d fields ds (w1 & w2 & -> & _) _ IH]; [constructor|]. inversion SHF as [|? ? (T & L) S']; subst. constructor; [|apply IH; exact S'].
    apply Forall_app in T. destruct T as (_ & T). apply Forall_app in T. split; [exact (proj1 T)|]. rewrite !zlen_app in L. pose proof (zlen_nonneg w1). pose proof (zlen_nonneg w2). lia. }
  assert (FO : fields_of line ds) by (exists body, parts, fields; auto).
  assert (HL : idna_line junk r hr errno la h = (
      let! ok := (if negb (nth 0 qs 0 =? 0) && negb (nth 1 qs 0 =? 0) && negb (nth 3 qs 0 =? 0) then idna_test junk r hr errno (nth 0 qs 0) (nth 1 qs 0) (nth 3 qs 0) else ret true) in
      do! free_fields qs in do! list_foreach lf free in do! destroy_list lf in do! list_foreach lp free in do! destroy_list lp in ret ok) h3).
  { unfold idna_line. rewrite (bnd_Ok _ _ _ _ _ E1). rewrite (bnd_Ok _ _ _ _ _ (get_first_ok _ _ _ IL1)).
    cbn [map pair_of fst hd_addr] in IL1 |- *.
    rewrite (bnd_Ok _ _ _ _ _ (get_value_ok h1 lp [] e0 v0 (map pair_of ps) IL1)).
    rewrite (bnd_Ok _ _ _ _ _ E2). rewrite (bnd_Ok _ _ _ _ _ E3). reflexivity. }
  assert (FIN : forall h5 (v : bool), world others h5 (OList lf (map pair_of us') :: map str_of us' ++ ns ++ L1) ->
    exists h', (do! free_fields qs in do! list_foreach lf free in do! destroy_list lf in do! list_foreach lp free in do! destroy_list lp in ret v) h5 = Ok (v, h') /\ world others h' os).
  { intros h5 v W5. apply (world_perm _ _ _ (ns ++ OList lf (map pair_of us') :: map str_of us' ++ L1)) in W5; [|perm].
    destruct (free_fields_ok others _ qs _ ns Pt h5 W5) as (h6 & E6 & W6). rewrite (bnd_Ok _ _ _ _ _ E6).
    destruct (w_free_all _ _ _ _ _ W6) as (h7 & E7 & W7). rewrite (bnd_Ok _ _ _ _ _ E7).
    destruct (w_destroy _ _ _ _ _ W7) as (h8 & E8 & W8). rewrite (bnd_Ok _ _ _ _ _ E8).
    destruct (w_free_all _ _ _ _ _ W8) as (h9 & E9 & W9). rewrite (bnd_Ok _ _ _ _ _ E9).
    destruct (w_destroy _ _ _ _ _ W9) as (h10 & E10 & W10). rewrite (bnd_Ok _ _ _ _ _ E10). exists h10. split; [reflexivity|exact W10]. }
  assert (FEW : nth 3 (up_to 7 ds) None = None -> (length ds < 4)%nat -> exists v h', idna_line junk r hr errno la h = Ok (v, h') /\ world others h' os /\ line_says encode line v).
  { intros X Ln. rewrite (pointing_null _ _ _ Pt 3 X) in HL. rewrite Z.eqb_refl in HL. cbn [negb] in HL. rewrite Bool.andb_false_r in HL. rewrite step_ret in HL.
    destruct (FIN h3 true W3) as (h' & E' & W'). exists true, h'. split; [rewrite HL; exact E'|]. split; [exact W'|]. exact (Says_nothing _ line ds FO Ln). }
  destruct ds as [|s [|u [|t [|n ds]]]]; try (apply FEW; [reflexivity|cbn; lia]). clear FEW.
  destruct (pointing_in _ _ _ Pt 0 s eq_refl) as [N0 I0]. destruct (pointing_in _ _ _ Pt 1 u eq_refl) as [N1 I1]. destruct (pointing_in _ _ _ Pt 3 n eq_refl) as [N3 I3].
  destruct (EL _ _ _ _ _ FO) as (o & Eo). pose proof (Forall_inv TD) as Ss. destruct (encode_string s o Ss Rs Eo) as (o' & En & _).
  assert (SUB : forall x, In x ns -> In x (OList lf (map pair_of us') :: map str_of us' ++ ns ++ L1)).
  { intros x Hx. right. apply in_or_app. right. apply in_or_app. left. exact Hx. }
  inversion TD as [|? ? _ TD1]; subst. inversion TD1 as [|? ? Su TD2]; subst. inversion TD2 as [|? ? _ TD3]; subst. inversion TD3 as [|? ? Sn _]; subst.
  destruct (idna_test_ok others h3 _ _ _ _ s u n o' W3 (SUB _ I0) (SUB _ I1) (SUB _ I3) (proj1 Ss) (proj1 Su) (proj1 Sn) En) as (v & h4 & E4 & W4 & V4).
  replace (negb (nth 0 qs 0 =? 0) && negb (nth 1 qs 0 =? 0) && negb (nth 3 qs 0 =? 0)) with true in HL by lia.
  rewrite (bnd_Ok _ _ _ _ _ E4) in HL. destruct (FIN h4 v W4) as (h' & E' & W'). exists v, h'. split; [rewrite HL; exact E'|]. split; [exact W'|].
  exact (Says_name _ line s u t n ds o' v FO En V4).
Qed.

(** * The file *)
Lemma getline_whole : forall file l file', getline file = (l, file') -> l = [] /\ file = [] /\ file' = [] \/ whole_line l file'.
Proof.
  induction file as [|c file IH]; intros l file' E; cbn [getline] in E; [injection E as <- <-; auto|].
  destruct (Z.eqb_spec c 10) as [->|Nc]; [injection E as <- <-; right; left; exists []; auto|].
  destruct (getline file) as [l1 f1] eqn:E1. injection E as <- <-. right. destruct (IH _ _ eq_refl) as [(-> & _ & ->)|[(l & -> & N)|(N1 & N2 & ->)]].
  - right. split; [discriminate|]. split; [intros [X|[]]; lia|reflexivity].
  - left. exists (c :: l). split; [reflexivity|]. intros [X|X]; [lia|contradiction].
  - right. split; [discriminate|]. split; [intros [X|X]; [lia|contradiction]|reflexivity].
Qed.
Lemma idna_main_ok others fuel : forall file line ol h os, (length file < fuel)%nat -> short file -> encodes_file file -> (line = 0 <-> ol = None) -> world others h (maybe line ol ++ os) ->
  exists v h', idna_main junk r hr errno fuel line true file h = Ok (v, h') /\ world others h' os /\ file_says encode file v.
Proof.
  induction fuel as [|fuel IH]; intros file line ol h os F S EF NL W; [lia|]. cbn [idna_main negb].
  destruct (getline file) as [l file'] eqn:EG. pose proof (getline_text _ _ _ EG) as Et.
  destruct (w_free_null _ _ _ _ _ W NL) as (h1 & E1 & W1).
  destruct (getline_whole _ _ _ EG) as [(-> & -> & _)|WL].
  { rewrite (bnd_Ok _ _ _ _ _ E1). exists true, h1. split; [reflexivity|]. split; [exact W1|constructor]. }
  assert (Nl : l <> []) by (destruct WL as [(x & -> & _)|(N & _)]; [destruct x; discriminate|exact N]).
  destruct l as [|c l]; [contradiction|]. set (l0 := c :: l) in *. rewrite (bnd_Ok _ _ _ _ _ E1).
  destruct S as (T & L). rewrite Et in T, L. apply Forall_app in T. destruct T as (Tl & Tf). rewrite zlen_app in L. pose proof (zlen_nonneg l0). pose proof (zlen_nonneg file').
  destruct (w_new _ _ _ (as_block l0) W1) as (la & h2 & E2 & NA & W2). unfold new_string in E2. rewrite step_lift in E2. rewrite (bnd_Ok _ _ _ _ _ E2).
  assert (EL : encodes_line l0) by (apply (EF [] l0 file'); [exact Et|exact WL|left; reflexivity]).
  assert (Sl : short l0) by (split; [exact Tl|lia]). assert (Sf : short file') by (split; [exact Tf|lia]).
  destruct (line_ok others h2 la l0 (OStr la (as_block l0) :: os) Sl EL (or_introl eq_refl) W2) as (v & h3 & E3 & W3 & LS). rewrite (bnd_Ok _ _ _ _ _ E3).
  assert (NA' : la = 0 <-> Some (as_block l0) = None) by (split; [intros X; contradiction|discriminate]).
  assert (Fl : (length file' < fuel)%nat) by (rewrite Et, app_length in F; unfold l0 in F; cbn [length] in F; lia).
  destruct v.
  - destruct (IH file' la (Some (as_block l0)) h3 os Fl Sf) as (v & h' & E4 & W4 & FS); [|exact NA'|exact W3|].
    { intros before line' after Ef WL' B. apply (EF (l0 ++ before) line' after); [rewrite Et, Ef, app_assoc; reflexivity|exact WL'|]. right.
      destruct B as [->|(b & ->)]; [|exists (l0 ++ b); rewrite app_assoc; reflexivity].
      rewrite app_nil_r. destruct WL as [(x & -> & _)|(_ & _ & X)]; [exists x; reflexivity|]. exfalso. rewrite X in Ef. cbn [app] in Ef. symmetry in Ef. apply app_eq_nil in Ef. destruct Ef as [-> _].
      destruct WL' as [(x & Y & _)|(Y & _)]; [destruct x; discriminate|contradiction]. }
    exists v, h'. split; [exact E4|]. split; [exact W4|]. rewrite Et. exact (File_line _ l0 file' v WL LS FS).
  - destruct fuel as [|fuel]; [lia|]. cbn [idna_main negb]. destruct (w_free_null _ _ _ la (Some (as_block l0)) W3 NA') as (h4 & E4 & W4). rewrite (bnd_Ok _ _ _ _ _ E4).
    exists false, h4. split; [reflexivity|]. split; [exact W4|]. rewrite Et. exact (File_wrong _ l0 file' WL LS).
Qed.
Lemma empty_world h : world (get h) h [].
Proof. split; [constructor|]. split; [constructor|]. split; [intros x []|reflexivity]. Qed.
Lemma idna_file_ok h file : text file -> zlen file < 2 ^ 58 -> encodes_file file ->
  exists v h', idna_main junk r hr errno (S (length file)) 0 true file h = Ok (v, h') /\ same_memory h h' /\ file_says encode file v.
Proof.
  intros T L EF. destruct (idna_main_ok (get h) (S (length file)) file 0 None h [] (Nat.lt_succ_diag_r _) (conj T L) EF (conj (fun _ => eq_refl) (fun _ => eq_refl)) (empty_world h)) as (v & h' & E & (_ & _ & _ & W) & FS).
  exists v, h'. split; [exact E|]. split; [|exact FS]. intros x. apply W. intros [].
Qed.

(** * Files of ASCII *)
Lemma join_in d (parts : list (list Z)) f c : In f parts -> In c f -> In c (join d parts).
Proof.
  induction parts as [|g parts IH]; intros I J; [destruct I|]. cbn [join]. destruct I as [->|I].
  - destruct parts; [exact J|]. apply in_or_app. left. exact J.
  - destruct parts; [destruct I|]. apply in_or_app. right. apply in_or_app. right. apply IH; assumption.
Qed.
Lemma ascii_encodes file : text file -> ascii file -> zlen file < 2 ^ 58 -> encodes_file file.
Proof.
  intros T A L before line after Ef _ _ s u t n fs (body & comments & fields & (J1 & _) & (J2 & _) & St).
  inversion St as [|f ? fields' ? (w1 & w2 & Efs & _) _ E1 E2]; subst f.
  assert (I : forall c, In c s -> In c file).
  { intros c Hc. rewrite Ef. apply in_or_app. right. apply in_or_app. left. rewrite <- J1. apply (join_in [35] (body :: comments) body c); [left; reflexivity|]. rewrite <- J2.
    apply (join_in [59] fields (w1 ++ s ++ w2)); [rewrite <- E1; left; reflexivity|]. apply in_or_app. right. apply in_or_app. left. exact Hc. }
  exists (Some (map ascii_lower s ++ [0])). apply C66_ascii.
  - unfold text in *. rewrite Forall_forall in *. auto.
  - unfold ascii in *. rewrite Forall_forall in *. auto.
  - assert (zlen s <= zlen file); [|lia]. rewrite Ef, !zlen_app. pose proof (string_len [35] (body :: comments) body (or_introl eq_refl)) as X. rewrite J1 in X.
    pose proof (string_len [59] fields (w1 ++ s ++ w2) ltac:(rewrite <- E1; left; reflexivity)) as Y. rewrite J2, !zlen_app in Y.
    pose proof (zlen_nonneg before). pose proof (zlen_nonneg after). pose proof (zlen_nonneg w1). pose proof (zlen_nonneg w2). lia.
Qed.

(** * There is one verdict only *)
Lemma runs_unique (W : Z -> Prop) a : forall b c d x y, Forall W a -> Forall W b -> ~ W c -> ~ W d -> a ++ c :: x = b ++ d :: y -> a = b /\ c :: x = d :: y.
Proof.
  induction a as [|e a IH]; intros [|f b] c d x y Fa Fb Nc Nd E; cbn [app] in E.
  - auto.
  - injection E as -> _. inversion Fb. contradiction.
  - injection E as -> _. inversion Fa. contradiction.
  - injection E as -> E. inversion Fa; subst. inversion Fb; subst. destruct (IH b c d x y) as [-> E']; auto.
Qed.
Lemma one_stripped (W : Z -> Prop) s m n : stripped W s m -> stripped W s n -> m = n.
Proof.
  intros (w1 & w2 & E1 & F1 & F2 & A1 & A2) (v1 & v2 & E2 & G1 & G2 & B1 & B2).
  assert (Z0 : forall (m : list Z) w1 w2 n v1 v2, s = w1 ++ m ++ w2 -> Forall W w1 -> Forall W w2 -> s = v1 ++ n ++ v2 -> (forall c m', n = c :: m' -> ~ W c) -> m = [] -> n = []).
  { clear. intros m w1 w2 n v1 v2 E F1 F2 E2 N ->. destruct n as [|c n]; [reflexivity|]. exfalso. apply (N c n eq_refl).
    assert (F : Forall W s) by (rewrite E; apply Forall_app; split; assumption). rewrite E2 in F. apply Forall_app in F. destruct F as [_ F]. inversion F. assumption. }
  destruct m as [|c m].
  { symmetry. exact (Z0 [] w1 w2 n v1 v2 E1 F1 F2 E2 B1 eq_refl). }
  destruct n as [|d n].
  { pose proof (Z0 [] v1 v2 (c :: m) w1 w2 E2 G1 G2 E1 A1 eq_refl). discriminate. }
  rewrite E1 in E2. cbn [app] in E2. destruct (runs_unique W w1 v1 c d (m ++ w2) (n ++ v2) F1 G1 (A1 c m eq_refl) (B1 d n eq_refl) E2) as [_ E3].
  change ((c :: m) ++ w2 = (d :: n) ++ v2) in E3.
  destruct (exists_last (l := c :: m)) as (m1 & x & Em); [discriminate|]. destruct (exists_last (l := d :: n)) as (n1 & y & En); [discriminate|].
  rewrite Em, En in E3 |- *. rewrite <- !app_assoc in E3. apply (f_equal (@rev Z)) in E3. rewrite !rev_app_distr in E3. cbn [rev app] in E3. rewrite <- !app_assoc in E3. cbn [app] in E3.
  destruct (runs_unique W (rev w2) (rev v2) x y (rev m1) (rev n1)) as [_ E4]; [apply Forall_rev; assumption|apply Forall_rev; assumption|exact (A2 x m1 Em)|exact (B2 y n1 En)|exact E3|].
  injection E4 as -> E4. apply (f_equal (@rev Z)) in E4. rewrite !rev_involutive in E4. rewrite E4. reflexivity.
Qed.
Lemma one_join c : forall p q : list (list Z), length p = length q -> Forall (fun x => ~ In c x) (removelast p) -> Forall (fun x => ~ In c x) (removelast q) -> join [c] p = join [c] q -> p = q.
Proof.
  induction p as [|a p IH]; intros [|b q] L Fp Fq E; try discriminate; [reflexivity|]. injection L as L.
  destruct p as [|a2 p], q as [|b2 q]; try discriminate; [cbn in E; congruence|].
  change (removelast (a :: a2 :: p)) with (a :: removelast (a2 :: p)) in Fp. change (removelast (b :: b2 :: q)) with (b :: removelast (b2 :: q)) in Fq.
  inversion Fp as [|? ? Na Fp']; subst. inversion Fq as [|? ? Nb Fq']; subst.
  change (a ++ c :: join [c] (a2 :: p) = b ++ c :: join [c] (b2 :: q)) in E. destruct (join_free_unique c a Na b _ _ Nb E) as [-> E'].
  f_equal. apply IH; assumption.
Qed.
Lemma one_split c max s p q : split_at_char c max s p -> split_at_char c max s q -> p = q.
Proof.
  intros (J1 & L1 & F1) (J2 & L2 & F2). apply (one_join c); [unfold zlen in *; lia|exact F1|exact F2|congruence].
Qed.
Lemma one_fields line fs gs : fields_of line fs -> fields_of line gs -> fs = gs.
Proof.
  intros (b1 & c1 & f1 & S1 & T1 & F1) (b2 & c2 & f2 & S2 & T2 & F2). pose proof (one_split _ _ _ _ _ S1 S2) as E. injection E as <- <-.
  pose proof (one_split _ _ _ _ _ T1 T2) as <-. clear - F1 F2. revert gs F2. induction F1 as [|f d fields ds H _ IH]; intros gs F2; inversion F2; subst; [reflexivity|].
  f_equal; [eapply one_stripped; eassumption|]. apply IH. assumption.
Qed.
Lemma one_verdict line : line_says encode line true -> ~ line_says encode line false.
Proof.
  intros H K; inversion H as [fs Ff Ln|s u t n fs o v Ff En V]; subst; inversion K as [|s' u' t' n' fs' o' v' Ff' En' V' E]; subst.
  - rewrite (one_fields _ _ _ Ff Ff') in Ln. cbn in Ln. lia.
  - pose proof (one_fields _ _ _ Ff Ff') as E. injection E as <- <- <- <- <-. destruct En as (E & _), En' as (E' & _). rewrite E in E'.
    assert (o = o') as <-.
    { destruct o as [d|], o' as [d'|]; cbn [option_map] in E'; try discriminate; [|reflexivity]. injection E' as E'. apply app_inj_tail in E'. destruct E' as [-> _]. reflexivity. }
    discriminate (proj2 V' (proj1 V eq_refl)).
Qed.
Lemma one_whole l1 f1 l2 f2 : whole_line l1 f1 -> whole_line l2 f2 -> l1 ++ f1 = l2 ++ f2 -> l1 = l2 /\ f1 = f2.
Proof.
  intros W1 W2 E. pose proof (proj1 (getline_ok _ _ W1)) as G1. pose proof (proj1 (getline_ok _ _ W2)) as G2. rewrite E, G2 in G1. injection G1 as -> ->. auto.
Qed.
Lemma file_verdict file : file_says encode file true -> ~ file_says encode file false.
Proof.
  intros A. remember true as v eqn:Ev. revert Ev. induction A as [|line file v WL LS FS IH|line file WL LS]; intros Ev; [| |discriminate].
  - intros K. inversion K as [|line file v WL LS FS E|line file WL LS E]; destruct (getline_ok _ _ WL) as [_ N]; apply app_eq_nil in E; tauto.
  - intros K. inversion K as [|line' file' v' WL' LS' FS' E|line' file' WL' LS' E]; destruct (one_whole _ _ _ _ WL' WL E) as [-> ->].
    + subst. exact (IH eq_refl FS').
    + exact (one_verdict line LS LS').
Qed.
End Idna.
