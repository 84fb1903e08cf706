(** The encoding of a host name and that of its parent domain: proofs. *)
From Verif Require Import Base CMem CharstrModel CharstrSpec CharstrProofs Utf8Model Utf8Spec Utf8Proofs UcdData NormModel NormSpec NormTables NormOrder NormBytes NormMain.
From Verif Require Import CategoryModel CategorySpec CategoryProofs CategoryData CategoryProps IdnaTabModel IdnaTabSpec IdnaData IdnaModel IdnaProofs.
From Verif Require Import PunyModel PunySpec PunyPass PunyHost PunyName PunyNfc PunyTop IdnaEncodeModel IdnaEncodeSpec IdnaEncodeProofs IdnaEncodeMore IdnaEncodeFate IdnaExactSpec IdnaExact IdnaCase.
From Coq Require Import ZifyBool ZifyNat.

(** * Composed names *)
Lemma composed_encoded junk r h errno s q cps : zlen (r_ccs r) = 100 -> text s -> ~ ascii s -> 3 * zlen s + 1 < 2 ^ 64 -> encodes s cps ->
  detect cps true 1 2 0 0 = 0 -> forall out, charstr_idna_encode junk r h errno (s ++ 0 :: q) = Ok (Some out) <->
  exists m name, images image cps = Some m /\ encoded_name m name /\ out = name ++ [0].
Proof.
  intros R T A L E D out. pose proof (idna_fate junk r h errno R s cps true q T A L (proj1 (encodes_scanned _ _) E)) as F.
  unfold fate in F. rewrite D in F. cbn [Z.eqb] in F. unfold outcome in F. destruct (images image cps) as [m|] eqn:Em.
  - pose proof (images_mapped cps m Em) as M. pose proof (mapped_scalar cps m (encodes_scalar _ _ E) M) as Sc.
    destruct (answer_iff m Sc (mapped_small _ _ M) (mapped_category _ _ M) _ F) as (I & _). rewrite I. split.
    + intros (name & K). exists m, name. split; [reflexivity|exact K].
    + intros (m' & name & K & H). injection K as <-. exists name. exact H.
  - rewrite F. split; [discriminate|]. intros (m & name & K & _). discriminate.
Qed.
Lemma encodes_two s t a b : encodes s a -> encodes t b -> encodes (s ++ t) (a ++ b).
Proof.
  intros (p & -> & F) (p' & -> & F'). exists (p ++ p'). split; [rewrite concat_app; reflexivity|apply Forall2_app; assumption].
Qed.
Lemma encodes_dot s t a b : encodes s a -> encodes t b -> encodes (s ++ 46 :: t) (a ++ 46 :: b).
Proof.
  intros E E'. apply (encodes_two s (46 :: t) a (46 :: b) E). apply (encodes_two [46] t [46] b); [|exact E'].
  exists [[46]]. split; [reflexivity|]. constructor; [|constructor]. split; [constructor; lia|left; lia].
Qed.
Lemma dot_class : ccc 46 = 0 /\ dis 1 46 = false /\ dis 2 46 = false.
Proof. vm_compute. auto. Qed.
Lemma detect_dot a b : forall last, detect a true 1 2 last 0 = 0 -> detect (a ++ 46 :: b) true 1 2 last 0 = detect b true 1 2 0 0.
Proof.
  induction a as [|c a IH]; intros l D; cbn [app detect] in *.
  - destruct dot_class as (-> & -> & ->). reflexivity.
  - destruct (truth (ccc c) && (l >? ccc c)); [discriminate|]. destruct (dis 1 c); [discriminate|]. destruct (dis 2 c); [|exact (IH _ D)].
    apply detect_zero in D; [|discriminate..]. destruct D as (_ & D & _). discriminate.
Qed.

(** * Mapping *)
Lemma images_app a b m : images image (a ++ b) = Some m -> exists x y, images image a = Some x /\ images image b = Some y /\ m = x ++ y.
Proof.
  revert m. induction a as [|c a IH]; intros m E; cbn [app images] in *; [exists [], m; auto|].
  destruct (image c) as [l|]; [|discriminate]. destruct (images image (a ++ b)) as [k|] eqn:Ek; [|discriminate]. injection E as <-.
  destruct (IH k eq_refl) as (x & y & -> & Ey & ->). exists (l ++ x), y. rewrite app_assoc. auto.
Qed.
Lemma image_dot : image 46 = Some [46].
Proof. vm_compute. reflexivity. Qed.
Lemma images_dot a b m : images image (a ++ 46 :: b) = Some m -> exists x y, images image a = Some x /\ images image b = Some y /\ m = x ++ 46 :: y.
Proof.
  intros E. destruct (images_app a (46 :: b) m E) as (x & y & Ex & Ey & ->). cbn [images] in Ey. rewrite image_dot in Ey.
  destruct (images image b) as [k|] eqn:Ek; [|discriminate]. injection Ey as <-. exists x, k. auto.
Qed.
Definition ascii_image (c : Z) : bool := match image c with None => true | Some [x] => x =? ascii_lower c | Some _ => false end.
Lemma ascii_images : forallb ascii_image (map Z.of_nat (seq 0 128)) = true.
Proof. vm_compute. reflexivity. Qed.
Lemma image_ascii c l : 0 <= c < 128 -> image c = Some l -> l = [ascii_lower c].
Proof.
  intros C E. pose proof (proj1 (forallb_forall _ _) ascii_images c) as H. unfold ascii_image in H. rewrite E in H.
  specialize (H ltac:(apply in_map_iff; exists (Z.to_nat c); split; [lia|apply in_seq; lia])). destruct l as [|x [|y l]]; try discriminate. f_equal. lia.
Qed.
Lemma images_ascii s : text s -> ascii s -> forall m, images image s = Some m -> m = map ascii_lower s.
Proof.
  induction s as [|c s IH]; intros T A m E; cbn [images map] in *; [congruence|]. inversion_clear T as [|? ? T1 T2]. inversion_clear A as [|? ? A1 A2].
  destruct (image c) as [l|] eqn:El; [|discriminate]. destruct (images image s) as [k|]; [|discriminate]. injection E as <-.
  rewrite (image_ascii c l ltac:(lia) El), (IH T2 A2 k eq_refl). reflexivity.
Qed.

(** * Labels *)
Lemma join_two p q : p <> [] -> q <> [] -> join_dots (p ++ q) = join_dots p ++ 46 :: join_dots q.
Proof.
  intros Np Nq. induction p as [|x p IH]; [destruct (Np eq_refl)|]. destruct p as [|y p]; [cbn [app]; apply PunyHost.join_cons; exact Nq|].
  cbn [app] in *. rewrite (PunyHost.join_cons x (y :: p ++ q)) by discriminate. rewrite IH by discriminate. rewrite (PunyHost.join_cons x (y :: p)) by discriminate.
  rewrite <- app_assoc. reflexivity.
Qed.
Lemma labels_two a b la lb : labels a la -> labels b lb -> labels (a ++ 46 :: b) (la ++ lb).
Proof.
  intros (N & F & ->) (N' & F' & ->). split; [destruct la; [congruence|discriminate]|]. split; [apply Forall_app; auto|]. rewrite join_two by assumption. reflexivity.
Qed.
Lemma encoded_parent a b out : b <> [] -> encoded_name (a ++ 46 :: b) out -> exists x y, out = x ++ 46 :: y /\ encoded_name b y.
Proof.
  intros Nb (_ & L8 & Lh & ls & es & Lb & Al & En & L63 & -> & L1 & _). destruct (labels_exist a) as (la & La). destruct (labels_exist b) as (lb & Lb').
  rewrite (labels_unique _ _ _ Lb (labels_two _ _ _ _ La Lb')) in *. clear ls Lb. apply Forall_app in Al. destruct Al as (_ & Al).
  apply Forall2_app_inv_l in En. destruct En as (ea & eb & Ea & Eb & ->). apply Forall_app in L63. destruct L63 as (_ & L63).
  assert (ea <> []) by (intros ->; inversion Ea; subst; destruct La as (K & _); congruence).
  assert (eb <> []) by (intros ->; inversion Eb; subst; destruct Lb' as (K & _); congruence).
  rewrite join_two in * by assumption. exists (join_dots ea), (join_dots eb). split; [reflexivity|].
  rewrite zlen_app, zlen_cons in L1. pose proof (zlen_nonneg (join_dots ea)).
  split; [exact Nb|]. split; [|split].
  - change (a ++ 46 :: b) with (a ++ [46] ++ b) in L8. rewrite app_assoc in L8. unfold encoding in *. rewrite flat_map_app, zlen_app in L8. pose proof (zlen_nonneg (flat_map utf8 (a ++ [46]))). lia.
  - destruct (exists_last Nb) as (b' & c & ->). change (46 :: b' ++ [c]) with ((46 :: b') ++ [c]) in Lh. rewrite app_assoc, !last_last in *. exact Lh.
  - exists lb, eb. split; [exact Lb'|]. split; [exact Al|]. split; [exact Eb|]. split; [exact L63|]. split; [reflexivity|]. split; lia.
Qed.
Lemma ascii_label_parts ls : Forall ascii ls -> forall es, Forall2 encoded_label ls es -> es = ls.
Proof.
  intros A es F. induction F as [|l e ls es [(_ & ->)|(N & _)] F IH]; [reflexivity| |].
  - f_equal. apply IH. exact (Forall_inv_tail A).
  - destruct N. exact (Forall_inv A).
Qed.
Lemma ascii_encoded m out : ascii m -> encoded_name m out -> out = m.
Proof.
  intros A (_ & _ & _ & ls & es & Lb & _ & En & _ & -> & _). pose proof (parts_ok m (fun c => c < 128) ls Lb A) as P.
  rewrite (ascii_label_parts ls P es En). destruct Lb as (_ & _ & ->). reflexivity.
Qed.
Lemma lower_still s : ascii s -> ascii (map ascii_lower s).
Proof.
  intros A. apply Forall_forall. intros x I. apply in_map_iff in I. destruct I as (c & <- & I). pose proof (proj1 (Forall_forall _ _) A c I). cbv beta in *.
  unfold ascii_lower. destruct (Z.leb_spec 65 c), (Z.leb_spec c 90); cbn [andb]; lia.
Qed.

Lemma empty_parent a out : encoded_name (a ++ [46]) out -> last out 0 = 46.
Proof.
  intros (_ & _ & _ & ls & es & Lb & _ & En & _ & -> & _). destruct (labels_exist a) as (la & La).
  assert (Lb' : labels [] [[]]) by (split; [discriminate|]; split; [constructor; [intros []|constructor]|reflexivity]).
  rewrite (labels_unique _ _ _ Lb (labels_two _ _ _ _ La Lb')) in *. clear ls Lb.
  apply Forall2_app_inv_l in En. destruct En as (ea & eb & Ea & Eb & ->). inversion Eb as [|? e ? ? E1 E2]; subst. inversion E2; subst.
  assert (ea <> []) by (intros ->; inversion Ea; subst; destruct La as (K & _); congruence).
  assert (e = []) as -> by (destruct E1 as [(_ & ->)|(N & _)]; [reflexivity|destruct N; constructor]).
  rewrite join_two by (assumption || discriminate). cbn [join_dots]. apply last_last.
Qed.

Lemma parent_ok junk r h errno a b q junk' r' h' errno' q' name : zlen (r_ccs r) = 100 -> zlen (r_ccs r') = 100 -> text a -> text b ->
  ~ ascii (a ++ 46 :: b) -> 3 * zlen (a ++ 46 :: b) + 1 < 2 ^ 64 ->
  charstr_unicode_canonically_composed (a ++ [0]) None = Ok true -> charstr_unicode_canonically_composed (b ++ [0]) None = Ok true ->
  charstr_idna_encode junk r h errno ((a ++ 46 :: b) ++ 0 :: q) = Ok (Some (name ++ [0])) -> last name 0 <> 46 ->
  exists host parent, name = host ++ 46 :: parent /\ charstr_idna_encode junk' r' h' errno' (b ++ 0 :: q') = Ok (Some (parent ++ [0])).
Proof.
  intros R R' Ta Tb A L Ca Cb E Nd. destruct (composed_valid a [] Ta Ca) as (ca & Ea). destruct (composed_valid b [] Tb Cb) as (cb & Eb).
  rewrite (composed_detect a [] ca Ta Ea) in Ca. rewrite (composed_detect b [] cb Tb Eb) in Cb. injection Ca as Ca. injection Cb as Cb. apply Z.eqb_eq in Ca, Cb.
  assert (T : text (a ++ 46 :: b)) by (apply Forall_app; split; [exact Ta|constructor; [lia|exact Tb]]).
  assert (D : detect (ca ++ 46 :: cb) true 1 2 0 0 = 0) by (rewrite detect_dot by exact Ca; exact Cb).
  apply (proj1 (composed_encoded junk r h errno _ q _ R T A L (encodes_dot _ _ _ _ Ea Eb) D _)) in E. destruct E as (m & name' & Em & En & K).
  apply app_inj_tail in K. destruct K as (<- & _). destruct (images_dot _ _ _ Em) as (ma & mb & Ema & Emb & ->).
  assert (Nb : mb <> []) by (intros ->; exact (Nd (empty_parent ma name En))).
  destruct (encoded_parent ma mb name Nb En) as (x & y & -> & Ey). exists x, y. split; [reflexivity|].
  assert (Lb : 3 * zlen b + 1 < 2 ^ 64) by (rewrite zlen_app, zlen_cons in L; pose proof (zlen_nonneg a); lia).
  destruct (ascii_dec b) as [Ab|Ab].
  - rewrite (encodes_det b cb b Eb (ascii_encodes b Tb Ab)) in Emb. pose proof (images_ascii b Tb Ab mb Emb) as ->.
    rewrite (ascii_encoded _ y (lower_still b Ab) Ey). pose proof (zlen_nonneg b).
    exact (idna_ascii idna_library spacing_mark real_category junk' image image_ok r' h' errno' b q' Tb Ab ltac:(lia)).
  - apply (proj2 (composed_encoded junk' r' h' errno' b q' cb R' Tb Ab Lb Eb Cb _)). exists mb, y. auto.
Qed.

(** * Joining names *)
Lemma images_join a b x y : images image a = Some x -> images image b = Some y -> images image (a ++ b) = Some (x ++ y).
Proof.
  revert x. induction a as [|c a IH]; intros x E E'; cbn [app images] in *; [injection E as <-; exact E'|].
  destruct (image c) as [l|]; [|discriminate]. destruct (images image a) as [k|]; [|discriminate]. injection E as <-.
  rewrite (IH k eq_refl E'). rewrite <- app_assoc. reflexivity.
Qed.
Lemma encoded_join a b x y : encoded_name a x -> encoded_name b y -> zlen (encoding (a ++ 46 :: b)) <= 254 -> zlen (x ++ 46 :: y) <= 252 ->
  encoded_name (a ++ 46 :: b) (x ++ 46 :: y).
Proof.
  intros (_ & _ & _ & la & ea & La & Aa & Ea & L63 & -> & _) (Nb & _ & Lh & lb & eb & Lb & Ab & Eb & L63' & -> & _) L8 L.
  assert (ea <> []) by (intros ->; inversion Ea; subst; destruct La as (K & _); congruence).
  assert (eb <> []) by (intros ->; inversion Eb; subst; destruct Lb as (K & _); congruence).
  split; [destruct a; discriminate|]. split; [exact L8|]. split.
  - destruct (exists_last Nb) as (b' & c & ->). change (46 :: b' ++ [c]) with ((46 :: b') ++ [c]). rewrite app_assoc, !last_last in *. exact Lh.
  - exists (la ++ lb), (ea ++ eb). split; [exact (labels_two _ _ _ _ La Lb)|]. split; [apply Forall_app; auto|]. split; [apply Forall2_app; assumption|].
    split; [apply Forall_app; auto|]. split; [symmetry; apply join_two; assumption|]. split; lia.
Qed.
Lemma joined_ok junk r h errno a b q junk1 r1 h1 errno1 q1 x junk2 r2 h2 errno2 q2 y :
  zlen (r_ccs r) = 100 -> zlen (r_ccs r1) = 100 -> zlen (r_ccs r2) = 100 -> text a -> text b -> ~ ascii a -> ~ ascii b -> 3 * zlen (a ++ 46 :: b) + 1 < 2 ^ 64 ->
  charstr_unicode_canonically_composed (a ++ [0]) None = Ok true -> charstr_unicode_canonically_composed (b ++ [0]) None = Ok true ->
  charstr_idna_encode junk1 r1 h1 errno1 (a ++ 0 :: q1) = Ok (Some (x ++ [0])) -> charstr_idna_encode junk2 r2 h2 errno2 (b ++ 0 :: q2) = Ok (Some (y ++ [0])) ->
  zlen (x ++ 46 :: y) <= 252 -> (forall cps m, encodes (a ++ 46 :: b) cps -> mapped_name cps m -> zlen (encoding m) <= 254) ->
  charstr_idna_encode junk r h errno ((a ++ 46 :: b) ++ 0 :: q) = Ok (Some ((x ++ 46 :: y) ++ [0])).
Proof.
  intros R R1 R2 Ta Tb Aa Ab L Ca Cb Xa Xb Ln Lm. destruct (composed_valid a [] Ta Ca) as (ca & Ea). destruct (composed_valid b [] Tb Cb) as (cb & Eb).
  rewrite (composed_detect a [] ca Ta Ea) in Ca. rewrite (composed_detect b [] cb Tb Eb) in Cb. injection Ca as Ca. injection Cb as Cb. apply Z.eqb_eq in Ca, Cb.
  assert (T : text (a ++ 46 :: b)) by (apply Forall_app; split; [exact Ta|constructor; [lia|exact Tb]]).
  assert (D : detect (ca ++ 46 :: cb) true 1 2 0 0 = 0) by (rewrite detect_dot by exact Ca; exact Cb).
  assert (A : ~ ascii (a ++ 46 :: b)) by (intros K; apply Forall_app in K; destruct K; contradiction).
  assert (L' : 3 * zlen a + 1 < 2 ^ 64 /\ 3 * zlen b + 1 < 2 ^ 64) by (rewrite zlen_app, zlen_cons in L; pose proof (zlen_nonneg a); pose proof (zlen_nonneg b); lia).
  apply (proj1 (composed_encoded junk1 r1 h1 errno1 a q1 ca R1 Ta Aa (proj1 L') Ea Ca _)) in Xa. destruct Xa as (ma & x' & Ma & Na & K).
  apply app_inj_tail in K. destruct K as (<- & _).
  apply (proj1 (composed_encoded junk2 r2 h2 errno2 b q2 cb R2 Tb Ab (proj2 L') Eb Cb _)) in Xb. destruct Xb as (mb & y' & Mb & Nb & K).
  apply app_inj_tail in K. destruct K as (<- & _).
  assert (M : images image (ca ++ 46 :: cb) = Some (ma ++ 46 :: mb)).
  { apply images_join; [exact Ma|]. cbn [images]. rewrite image_dot, Mb. reflexivity. }
  pose proof (encodes_dot _ _ _ _ Ea Eb) as E.
  apply (proj2 (composed_encoded junk r h errno _ q _ R T A L E D _)). exists (ma ++ 46 :: mb), (x ++ 46 :: y). split; [exact M|]. split; [|reflexivity].
  exact (encoded_join ma mb x y Na Nb (Lm _ _ E (images_mapped _ _ M)) Ln).
Qed.

(** * Hosts with ASCII names in other domains *)
Definition host_label (l : list Z) : Prop := Forall host_char l /\ hd 0 l <> 45 /\ zlen l <= 63.
Definition host_chars : list Z := 45 :: 46 :: map Z.of_nat (seq 48 10) ++ map Z.of_nat (seq 97 26).
Lemma host_char_in c : host_char c \/ c = 46 -> In c host_chars.
Proof.
  intros H. unfold host_chars, host_char in *. cbn [In]. rewrite in_app_iff, !in_map_iff.
  assert (c = 45 \/ c = 46 \/ 48 <= c <= 57 \/ 97 <= c <= 122) as [K|[K|[K|K]]] by lia; [left; lia|right; left; lia|right; right; left|right; right; right];
    exists (Z.to_nat c); (split; [lia|apply in_seq; lia]).
Qed.
Definition plain (c : Z) : bool :=
  (ccc c =? 0) && negb (dis 1 c) && negb (dis 2 c) && match image c with Some [x] => x =? c | _ => false end.
Lemma host_chars_plain : forallb plain host_chars = true.
Proof. vm_compute. reflexivity. Qed.
Lemma host_plain c : host_char c \/ c = 46 -> ccc c = 0 /\ dis 1 c = false /\ dis 2 c = false /\ image c = Some [c].
Proof.
  intros H. pose proof (proj1 (forallb_forall _ _) host_chars_plain c (host_char_in c H)) as P. unfold plain in P.
  destruct (dis 1 c), (dis 2 c), (image c) as [[|x [|y l]]|]; cbn [negb andb] in P; rewrite ?andb_false_r in P; try discriminate.
  rewrite !andb_true_r in P. apply andb_true_iff in P. destruct P as (P1 & P2). repeat split; try lia. do 2 f_equal. lia.
Qed.
Lemma plain_detect s : Forall (fun c => host_char c \/ c = 46) s -> forall last, detect s true 1 2 last 0 = 0.
Proof.
  induction 1 as [|c s C _ IH]; intros l; [reflexivity|]. cbn [detect]. destruct (host_plain c C) as (-> & -> & -> & _). cbn [truth Z.eqb negb andb]. apply IH.
Qed.
Lemma plain_images s : Forall (fun c => host_char c \/ c = 46) s -> images image s = Some s.
Proof. induction 1 as [|c s C _ IH]; [reflexivity|]. cbn [images]. destruct (host_plain c C) as (_ & _ & _ & ->). rewrite IH. reflexivity. Qed.
Lemma host_name_plain s ls : labels s ls -> Forall host_label ls -> Forall (fun c => host_char c \/ c = 46) s.
Proof.
  intros (_ & _ & ->) F. induction F as [|l ls (H & _) F IH]; [constructor|]. assert (H' : Forall (fun c => host_char c \/ c = 46) l) by (eapply Forall_impl; [|exact H]; auto).
  destruct ls as [|l' ls]; [exact H'|]. rewrite PunyHost.join_cons by discriminate. apply Forall_app. split; [exact H'|]. constructor; [auto|exact IH].
Qed.
Lemma host_accepted s ls : labels s ls -> Forall host_label ls -> Forall accepted_label ls /\ Forall2 encoded_label ls ls /\ Forall (fun e => zlen e <= 63) ls.
Proof.
  intros Lb F. pose proof (host_name_plain s ls Lb F) as P. pose proof (images_mapped s s (plain_images s P)) as M.
  assert (Sc : Forall scalar s) by (eapply Forall_impl; [|exact P]; intros c C; unfold host_char, scalar in *; lia).
  pose proof (parts_ok s _ ls Lb Sc) as P1. pose proof (parts_ok s _ ls Lb (mapped_category _ _ M)) as P2. pose proof (parts_ok s _ ls Lb (mapped_small _ _ M)) as P3.
  rewrite Forall_forall in F. split; [|split].
  - apply Forall_forall. intros l I. destruct (F l I) as (H & Hy & _).
    pose proof (proj1 (Forall_forall _ _) P2 l I) as Q2. split; [eapply Forall_impl; [|exact H]; auto|]. destruct l as [|c l]; [exact Logic.I|].
    split; [exact Hy|]. destruct (Forall_inv Q2) as (k & K). exists k. split; [exact K|]. intros ->.
    pose proof (proj1 (Forall_forall _ _) P1 (c :: l) I) as Q1.
    apply (fine_not_mark (c :: l)); [exact Q1| |exact K]. clear - H. unfold fine_label. apply andb_true_iff. split.
    + apply forallb_forall. intros x I. pose proof (proj1 (Forall_forall _ _) H x I) as X. unfold host_char in X. unfold fine_char, ldh. lia.
    + unfold fine_first. pose proof (Forall_inv H) as X. unfold host_char in X. lia.
  - assert (G : forall l, In l ls -> encoded_label l l).
    { intros l I. left. split; [|reflexivity]. destruct (F l I) as (H & _). eapply Forall_impl; [|exact H]. intros c C. unfold host_char in C. cbv beta. lia. }
    clear - G. induction ls as [|l ls IH]; [constructor|]. constructor; [apply G; left; reflexivity|]. apply IH. intros x I. apply G. right. exact I.
  - apply Forall_forall. intros l I. apply (F l I).
Qed.
Lemma images_of_lower s : images image s = images image (map ascii_lower s).
Proof. symmetry. apply images_lower. Qed.
Lemma host_ok junk r h errno a ls b q junk2 r2 h2 errno2 q2 y :
  zlen (r_ccs r) = 100 -> zlen (r_ccs r2) = 100 -> text a -> text b -> ascii a -> labels (map ascii_lower a) ls -> Forall host_label ls -> ~ ascii b -> 3 * zlen (a ++ 46 :: b) + 1 < 2 ^ 64 ->
  charstr_unicode_canonically_composed (b ++ [0]) None = Ok true ->
  charstr_idna_encode junk2 r2 h2 errno2 (b ++ 0 :: q2) = Ok (Some (y ++ [0])) ->
  zlen (a ++ 46 :: y) <= 252 -> (forall cps m, encodes (a ++ 46 :: b) cps -> mapped_name cps m -> zlen (encoding m) <= 254) ->
  charstr_idna_encode junk r h errno ((a ++ 46 :: b) ++ 0 :: q) = Ok (Some ((map ascii_lower a ++ 46 :: y) ++ [0])).
Proof.
  intros R R2 Ta Tb Aa Lb Hl Ab L Cb Xb Ln Lm. destruct (composed_valid b [] Tb Cb) as (cb & Eb).
  rewrite (composed_detect b [] cb Tb Eb) in Cb. injection Cb as Cb. apply Z.eqb_eq in Cb. pose proof (host_name_plain _ _ Lb Hl) as P.
  assert (Ca : detect a true 1 2 0 0 = 0) by (rewrite <- detect_lower; apply plain_detect; exact P).
  assert (T : text (a ++ 46 :: b)) by (apply Forall_app; split; [exact Ta|constructor; [lia|exact Tb]]).
  assert (D : detect (a ++ 46 :: cb) true 1 2 0 0 = 0) by (rewrite detect_dot by exact Ca; exact Cb).
  assert (A : ~ ascii (a ++ 46 :: b)) by (intros K; apply Forall_app in K; destruct K as (_ & K); apply Ab; exact (Forall_inv_tail K)).
  assert (L' : 3 * zlen b + 1 < 2 ^ 64) by (rewrite zlen_app, zlen_cons in L; pose proof (zlen_nonneg a); lia).
  apply (proj1 (composed_encoded junk2 r2 h2 errno2 b q2 cb R2 Tb Ab L' Eb Cb _)) in Xb. destruct Xb as (mb & y' & Mb & Nb & K).
  apply app_inj_tail in K. destruct K as (<- & _).
  assert (M : images image (a ++ 46 :: cb) = Some (map ascii_lower a ++ 46 :: mb)).
  { apply images_join; [rewrite images_of_lower; apply plain_images; exact P|]. cbn [images]. rewrite image_dot, Mb. reflexivity. }
  pose proof (encodes_dot _ _ _ _ (ascii_encodes a Ta Aa) Eb) as E.
  apply (proj2 (composed_encoded junk r h errno _ q _ R T A L E D _)). exists (map ascii_lower a ++ 46 :: mb), (map ascii_lower a ++ 46 :: y). split; [exact M|]. split; [|reflexivity].
  destruct (host_accepted _ _ Lb Hl) as (H1 & H2 & H3). destruct Nb as (Nb & _ & Lh & lb & eb & Lb' & Ab' & Eb' & L63' & -> & _).
  assert (eb <> []) by (intros ->; inversion Eb'; subst; destruct Lb' as (K & _); congruence).
  assert (ls <> []) by (destruct Lb as (K & _); exact K).
  assert (Ln' : zlen (map ascii_lower a ++ 46 :: join_dots eb) <= 252) by (rewrite zlen_app, zlen_cons in *; unfold zlen in *; rewrite map_length; lia).
  split; [destruct (map ascii_lower a); discriminate|]. split; [exact (Lm _ _ E (images_mapped _ _ M))|]. split.
  - destruct (exists_last Nb) as (b' & c & ->). change (46 :: b' ++ [c]) with ((46 :: b') ++ [c]). rewrite app_assoc, !last_last in *. exact Lh.
  - exists (ls ++ lb), (ls ++ eb). split; [exact (labels_two _ _ _ _ Lb Lb')|]. split; [apply Forall_app; auto|]. split; [apply Forall2_app; assumption|].
    split; [apply Forall_app; auto|]. split; [rewrite join_two by assumption; destruct Lb as (_ & _ & <-); reflexivity|]. split; lia.
Qed.
