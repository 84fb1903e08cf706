(** The callbacks for strings. *)
From Verif Require Import Base Heap IntegerModel IntegerProofs KeyModel KeySpec.
Open Scope list_scope.
Open Scope Z_scope.

Lemma c_string_shape b s : c_string b = Some s -> exists rest, b = s ++ 0 :: rest /\ Forall (fun c => byte c /\ c <> 0) s.
Proof.
  revert s; induction b as [|c b IH]; intros s; cbn [c_string]; [discriminate|].
  destruct (c =? 0) eqn:E.
  - intros E'. injection E' as <-. exists b. apply Z.eqb_eq in E. subst c. split; [reflexivity|constructor].
  - destruct ((0 <? c) && (c <? 256)) eqn:R; [|discriminate]. destruct (c_string b) as [s0|]; [|discriminate]. cbn [option_map].
    intros E'. injection E' as <-. destruct (IH s0 eq_refl) as (rest & -> & F). exists rest. split; [reflexivity|].
    constructor; [unfold byte; lia|exact F].
Qed.
Lemma strcmp_ok s t r r' : Forall (fun c => byte c /\ c <> 0) s -> Forall (fun c => byte c /\ c <> 0) t ->
  strcmp (s ++ 0 :: r) (t ++ 0 :: r') = Ok (compare_strings s t).
Proof.
  intros Hs; revert t; induction Hs as [|c s [Bc Nc] Hs IH]; intros t Ht; destruct Ht as [|d t [Bd Nd] Ht]; cbn [app strcmp compare_strings].
  - reflexivity.
  - destruct (0 =? d) eqn:E; [lia|]. reflexivity.
  - destruct (c =? 0) eqn:E; [lia|]. f_equal. lia.
  - destruct (c =? d) eqn:E; [|reflexivity]. destruct (c =? 0) eqn:E0; [lia|]. apply IH; exact Ht.
Qed.
Lemma compare_zero s t : Forall (fun c => byte c /\ c <> 0) s -> Forall (fun c => byte c /\ c <> 0) t ->
  compare_strings s t = 0 -> s = t.
Proof.
  intros Hs; revert t; induction Hs as [|c s [Bc Nc] Hs IH]; intros t Ht; destruct Ht as [|d t [Bd Nd] Ht]; cbn [compare_strings]; try (intros; lia); [reflexivity|].
  destruct (c =? d) eqn:E; [|intros; lia]. intros E'. f_equal; [lia|]. apply IH; assumption.
Qed.
Lemma compare_same s : compare_strings s s = 0.
Proof. induction s as [|c s IH]; [reflexivity|]. cbn [compare_strings]. rewrite Z.eqb_refl. exact IH. Qed.

Lemma readable_text s : readable c_string s -> Forall (fun c => byte c /\ c <> 0) s.
Proof. intros (b & E). destruct (c_string_shape _ _ E) as (_ & _ & F). exact F. Qed.
Lemma strings_equal s t : readable c_string s -> readable c_string t -> (compare_strings s t = 0 <-> s = t).
Proof.
  intros Hs Ht. split; [apply compare_zero; apply readable_text; assumption|]. intros <-. apply compare_same.
Qed.
Lemma strings_proper hash cmp : proper c_string string_callbacks hash cmp (fun s => u64 (poly (map s8 s))) compare_strings.
Proof.
  constructor.
  - intros s _. apply compare_same.
  - intros s t Hs Ht E. apply strings_equal in E; try assumption. subst t. apply compare_same.
  - intros s t u Hs Ht Hu E F. apply strings_equal in E; try assumption. subst t. exact F.
  - intros s t Hs Ht E. apply strings_equal in E; try assumption. subst t. reflexivity.
  - intros h k s (b & G & E). destruct (c_string_shape _ _ E) as (rest & -> & F).
    cbn [ask_hash string_callbacks]. unfold bnd, ld_slots, lift. rewrite G, (hash_string_ok s rest F). reflexivity.
  - intros h k s l t (b & G & E) (b' & G' & E'). destruct (c_string_shape _ _ E) as (rest & -> & F).
    destruct (c_string_shape _ _ E') as (rest' & -> & F').
    cbn [ask_cmp string_callbacks]. unfold bnd, ld_slots, lift. rewrite G, G', (strcmp_ok s t rest rest' F F'). reflexivity.
Qed.
