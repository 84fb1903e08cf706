(** The functions of the model as sequences of accesses. *)
From Verif Require Import Base Heap ListModel HashModel AvlModel CMem ObjModel ByteHeapModel ObjSpec ThreadModel ThreadSpec.
Open Scope list_scope.
Open Scope Z_scope.

Definition coded (reads : bool) {A} (m : M A) : Type := { s : steps A | (forall h, effect s h = m h) /\ (reads = true -> looks_only s) }.

Lemma followed_effect {A B} (s : steps A) (k : A -> steps B) : forall h, effect (followed_by s k) h = bnd (effect s) (fun a => effect (k a)) h.
Proof.
  induction s as [a| | | |a r IH|a ch r IH|c r IH|a r IH|e r IH]; intros h; cbn [followed_by effect]; unfold bnd, ret, fail, lift, no_fuel; try reflexivity.
  - destruct (get h a) as [c|]; [|reflexivity]. rewrite IH. reflexivity.
  - destruct (get h a) as [c|]; [|reflexivity]. destruct (ch c); [|reflexivity]. rewrite IH. reflexivity.
  - cbn. rewrite IH. reflexivity.
  - unfold free. destruct (get h a); [|reflexivity]. rewrite IH. reflexivity.
  - unfold fuel. rewrite IH. reflexivity.
Qed.
Lemma followed_looks {A B} (s : steps A) (k : A -> steps B) : looks_only s -> (forall a, looks_only (k a)) -> looks_only (followed_by s k).
Proof. induction s as [a| | | |a r IH|a ch r IH|c r IH|a r IH|e r IH]; cbn; intros L K; auto. Qed.

Definition c_bnd {ro A B} (m : M A) (f : A -> M B) (Hm : coded ro m) (Hf : forall a, coded ro (f a)) : coded ro (bnd m f).
Proof.
  exists (followed_by (proj1_sig Hm) (fun a => proj1_sig (Hf a))). destruct Hm as [s [E L]]. cbn [proj1_sig]. split.
  - intros h. rewrite followed_effect. unfold bnd. rewrite E. destruct (m h) as [[a h']| | |]; try reflexivity. apply (proj1 (proj2_sig (Hf a))).
  - intros R. apply followed_looks; [auto|]. intros a. apply (proj2 (proj2_sig (Hf a))), R.
Defined.
Definition c_lift {ro A} (r : res A) : coded ro (lift r).
Proof. destruct r; [exists (Finish a)|exists Undefined|exists Aborts|exists Exhausted]; (split; [reflexivity|cbn; auto]). Defined.
Definition c_ret {ro A} (a : A) : coded ro (ret a).
Proof. exists (Finish a). split; [reflexivity|cbn; auto]. Defined.
Definition c_fail {ro A} : coded ro (@fail A).
Proof. exists Undefined. split; [reflexivity|cbn; auto]. Defined.
Definition c_no_fuel {ro A} : coded ro (@no_fuel A).
Proof. exists Exhausted. split; [reflexivity|cbn; auto]. Defined.
Definition c_fuel {ro} : coded ro fuel.
Proof. exists (Rounds 0 Finish). split; [reflexivity|cbn; auto]. Defined.
Definition c_alloc (c : cell) : coded false (alloc c).
Proof. exists (Allocate c Finish). split; [intros h; reflexivity|discriminate]. Defined.
Definition c_free (a : Z) : coded false (free a).
Proof. exists (Release a (Finish tt)). split; [|discriminate]. intros h. cbn. unfold bnd, free. destruct (get h a); reflexivity. Defined.
Ltac load a f := exists (Load a (fun c => f c)); split; [intros h; cbv beta delta [ld_list ld_lelem ld_htab ld_slots ld_helem ld_avl ld_aelem]; cbn [effect]; destruct (get h a) as [[]|]; reflexivity|cbn; intros _ []; cbn; exact I].
Definition c_ld_list {ro} (a : Z) : coded ro (ld_list a). Proof. load a (fun c => match c with CList x => Finish x | _ => Undefined end). Defined.
Definition c_ld_lelem {ro} (a : Z) : coded ro (ld_lelem a). Proof. load a (fun c => match c with CLelem x => Finish x | _ => Undefined end). Defined.
Definition c_ld_htab {ro} (a : Z) : coded ro (ld_htab a). Proof. load a (fun c => match c with CHtab x => Finish x | _ => Undefined end). Defined.
Definition c_ld_slots {ro} (a : Z) : coded ro (ld_slots a). Proof. load a (fun c => match c with CSlots x => Finish x | _ => Undefined end). Defined.
Definition c_ld_helem {ro} (a : Z) : coded ro (ld_helem a). Proof. load a (fun c => match c with CHelem x => Finish x | _ => Undefined end). Defined.
Definition c_ld_avl {ro} (a : Z) : coded ro (ld_avl a). Proof. load a (fun c => match c with CAvl x => Finish x | _ => Undefined end). Defined.
Definition c_ld_aelem {ro} (a : Z) : coded ro (ld_aelem a). Proof. load a (fun c => match c with CAelem x => Finish x | _ => Undefined end). Defined.
Ltac store a f := exists (Store a f (Finish tt)); split; [intros h; cbv beta delta [st_list st_lelem st_htab st_slots st_helem st_avl st_aelem]; cbn [effect]; destruct (get h a) as [[]|]; reflexivity|discriminate].
Definition c_st_list (a : Z) x : coded false (st_list a x). Proof. store a (fun c => match c with CList _ => Some (CList x) | _ => None end). Defined.
Definition c_st_lelem (a : Z) x : coded false (st_lelem a x). Proof. store a (fun c => match c with CLelem _ => Some (CLelem x) | _ => None end). Defined.
Definition c_st_htab (a : Z) x : coded false (st_htab a x). Proof. store a (fun c => match c with CHtab _ => Some (CHtab x) | _ => None end). Defined.
Definition c_st_slots (a : Z) x : coded false (st_slots a x). Proof. store a (fun c => match c with CSlots _ => Some (CSlots x) | _ => None end). Defined.
Definition c_st_helem (a : Z) x : coded false (st_helem a x). Proof. store a (fun c => match c with CHelem _ => Some (CHelem x) | _ => None end). Defined.
Definition c_st_avl (a : Z) x : coded false (st_avl a x). Proof. store a (fun c => match c with CAvl _ => Some (CAvl x) | _ => None end). Defined.
Definition c_st_aelem (a : Z) x : coded false (st_aelem a x). Proof. store a (fun c => match c with CAelem _ => Some (CAelem x) | _ => None end). Defined.

Ltac code1 :=
  match goal with
  | |- coded _ (bnd _ _) => apply c_bnd; [|intro]
  | |- coded _ (ret _) => apply c_ret
  | |- coded _ fail => apply c_fail
  | |- coded _ no_fuel => apply c_no_fuel
  | |- coded _ fuel => apply c_fuel
  | |- coded _ (lift _) => apply c_lift
  | |- coded _ (match ?x with _ => _ end) => destruct x
  | |- coded _ (alloc _) => apply c_alloc
  | |- coded _ (free _) => apply c_free
  | |- coded _ (ld_list _) => apply c_ld_list
  | |- coded _ (ld_lelem _) => apply c_ld_lelem
  | |- coded _ (ld_htab _) => apply c_ld_htab
  | |- coded _ (ld_slots _) => apply c_ld_slots
  | |- coded _ (ld_helem _) => apply c_ld_helem
  | |- coded _ (ld_avl _) => apply c_ld_avl
  | |- coded _ (ld_aelem _) => apply c_ld_aelem
  | |- coded _ (st_list _ _) => apply c_st_list
  | |- coded _ (st_lelem _ _) => apply c_st_lelem
  | |- coded _ (st_htab _ _) => apply c_st_htab
  | |- coded _ (st_slots _ _) => apply c_st_slots
  | |- coded _ (st_helem _ _) => apply c_st_helem
  | |- coded _ (st_avl _ _) => apply c_st_avl
  | |- coded _ (st_aelem _ _) => apply c_st_aelem
  end.
Create HintDb code.
Ltac code := repeat first [code1 | solve [auto 2 with code nocore]].
Ltac loop f := match goal with |- forall n : nat, _ => let n := fresh "n" in let IH := fresh "IH" in intros n; induction n as [|n IH]; intros; cbn [f]; code end.

(** ** Lists *)
Definition c_list_elem_get_value {ro} e : coded ro (list_elem_get_value e). Proof. unfold list_elem_get_value. code. Defined.
Definition c_list_get_first {ro} l : coded ro (list_get_first l). Proof. unfold list_get_first. code. Defined.
Definition c_list_get_last {ro} l : coded ro (list_get_last l). Proof. unfold list_get_last. code. Defined.
Definition c_lget_loop {ro} : forall n v e, coded ro (ListModel.get_loop n v e). Proof. loop ListModel.get_loop. Defined.
Definition c_index_loop {ro} : forall n idx e i, coded ro (index_loop n idx e i). Proof. loop index_loop. Defined.
Definition c_list_next {ro} e : coded ro (list_next e). Proof. unfold list_next. code. Defined.
Definition c_list_previous {ro} e : coded ro (list_previous e). Proof. unfold list_previous. code. Defined.
Definition c_list_empty {ro} l : coded ro (list_empty l). Proof. unfold list_empty. code. Defined.
Definition c_list_size {ro} l : coded ro (list_size l). Proof. unfold list_size. code. Defined.
Definition c_destroy_elems : forall n e, coded false (destroy_elems n e). Proof. loop destroy_elems. Defined.
Definition c_st_first l v : coded false (st_first l v). Proof. unfold st_first. code. Defined.
Definition c_st_last l v : coded false (st_last l v). Proof. unfold st_last. code. Defined.
Definition c_st_size l v : coded false (st_size l v). Proof. unfold st_size. code. Defined.
Definition c_st_prev l v : coded false (st_prev l v). Proof. unfold st_prev. code. Defined.
Definition c_st_next l v : coded false (st_next l v). Proof. unfold st_next. code. Defined.
#[export] Hint Resolve c_list_elem_get_value c_list_get_first c_list_get_last c_lget_loop c_index_loop c_list_next c_list_previous c_list_empty c_list_size c_destroy_elems
  c_st_first c_st_last c_st_size c_st_prev c_st_next : code.
Definition c_size_inc l : coded false (size_inc l). Proof. unfold size_inc. code. Defined.
Definition c_size_dec l : coded false (size_dec l). Proof. unfold size_dec. code. Defined.
#[export] Hint Resolve c_size_inc c_size_dec : code.
Definition c_make_list : coded false make_list. Proof. unfold make_list. code. Defined.
Definition c_destroy_list l : coded false (destroy_list l). Proof. unfold destroy_list. code. Defined.
Definition c_list_get {ro} l v : coded ro (list_get l v). Proof. unfold list_get. code. Defined.
Definition c_list_get_by_index {ro} l i : coded ro (list_get_by_index l i). Proof. unfold list_get_by_index. code. Defined.
Definition c_list_append l v : coded false (list_append l v). Proof. unfold list_append. code. Defined.
Definition c_list_prepend l v : coded false (list_prepend l v). Proof. unfold list_prepend. code. Defined.
#[export] Hint Resolve c_make_list c_destroy_list c_list_get c_list_get_by_index c_list_append c_list_prepend : code.
Definition c_list_insert_before l v n : coded false (list_insert_before l v n). Proof. unfold list_insert_before. code. Defined.
Definition c_list_remove l e : coded false (list_remove l e). Proof. unfold list_remove. code. Defined.
#[export] Hint Resolve c_list_insert_before c_list_remove : code.
Definition c_list_pop_first l : coded false (list_pop_first l). Proof. unfold list_pop_first. code. Defined.
Definition c_list_pop_last l : coded false (list_pop_last l). Proof. unfold list_pop_last. code. Defined.
Definition c_foreach_loop {ro} (f : Z -> M unit) (F : forall v, coded ro (f v)) : forall n e, coded ro (foreach_loop n f e). Proof. loop foreach_loop. Defined.
#[export] Hint Resolve c_list_pop_first c_list_pop_last c_foreach_loop : code.
Definition c_list_foreach {ro} l (f : Z -> M unit) (F : forall v, coded ro (f v)) : coded ro (list_foreach l f). Proof. unfold list_foreach. code. Defined.
Definition c_append_it l v : coded false (append_it l v). Proof. unfold append_it. code. Defined.
#[export] Hint Resolve c_list_foreach c_append_it : code.
Definition c_list_copy l : coded false (list_copy l). Proof. unfold list_copy. code. Defined.

(** ** Hash tables *)
Definition c_ld_slot {ro} t i : coded ro (ld_slot t i). Proof. unfold ld_slot. code. Defined.
Definition c_st_slot t i v : coded false (st_slot t i v). Proof. unfold st_slot. code. Defined.
Definition c_st_ht_size t v : coded false (st_ht_size t v). Proof. unfold st_ht_size. code. Defined.
#[export] Hint Resolve c_ld_slot c_st_slot c_st_ht_size : code.
Definition c_ht_size_inc t : coded false (ht_size_inc t). Proof. unfold ht_size_inc. code. Defined.
Definition c_ht_size_dec t : coded false (ht_size_dec t). Proof. unfold ht_size_dec. code. Defined.
Definition c_make_hash_table c h f : coded false (make_hash_table c h f). Proof. unfold make_hash_table. code. Defined.
Definition c_destroy_hash_element e : coded false (destroy_hash_element e). Proof. unfold destroy_hash_element. code. Defined.
#[export] Hint Resolve c_ht_size_inc c_ht_size_dec c_destroy_hash_element : code.
Definition c_destroy_bucket : forall n e, coded false (destroy_bucket n e). Proof. loop destroy_bucket. Defined.
#[export] Hint Resolve c_destroy_bucket : code.
Definition c_destroy_buckets : forall n t i, coded false (destroy_buckets n t i). Proof. loop destroy_buckets. Defined.
#[export] Hint Resolve c_destroy_buckets : code.
Definition c_destroy_hash_table t : coded false (destroy_hash_table t). Proof. unfold destroy_hash_table. code. Defined.
Definition c_add_element t i k v : coded false (add_element t i k v). Proof. unfold add_element. code. Defined.
Definition c_hash_table_size {ro} t : coded ro (hash_table_size t). Proof. unfold hash_table_size. code. Defined.
Definition c_hash_elem_get_key {ro} t : coded ro (hash_elem_get_key t). Proof. unfold hash_elem_get_key. code. Defined.
Definition c_hash_elem_get_value {ro} t : coded ro (hash_elem_get_value t). Proof. unfold hash_elem_get_value. code. Defined.
Definition c_bucket_index {ro} fn t k : coded ro (bucket_index fn t k). Proof. unfold bucket_index. code. Defined.
Definition c_ht_get_loop {ro} fn : forall n t k e, coded ro (ht_get_loop fn n t k e). Proof. loop ht_get_loop. Defined.
#[export] Hint Resolve c_add_element c_hash_table_size c_hash_elem_get_key c_hash_elem_get_value c_bucket_index c_ht_get_loop : code.
Definition c_hash_table_get {ro} fn t k : coded ro (hash_table_get fn t k). Proof. unfold hash_table_get. code. Defined.
Definition c_ht_put_loop fn : forall n t i l k v e, coded false (ht_put_loop fn n t i l k v e). Proof. loop ht_put_loop. Defined.
#[export] Hint Resolve c_hash_table_get c_ht_put_loop : code.
Definition c_hash_table_put fn t k v : coded false (hash_table_put fn t k v). Proof. unfold hash_table_put. code. Defined.
Definition c_hash_table_detach t e : coded false (hash_table_detach t e). Proof. unfold hash_table_detach. code. Defined.
#[export] Hint Resolve c_hash_table_put c_hash_table_detach : code.
Definition c_hash_table_remove t e : coded false (hash_table_remove t e). Proof. unfold hash_table_remove. code. Defined.
Definition c_hash_table_pop fn t k : coded false (hash_table_pop fn t k). Proof. unfold hash_table_pop. code. Defined.
Definition c_pop_any_loop : forall n t i, coded false (pop_any_loop n t i). Proof. loop pop_any_loop. Defined.
Definition c_get_next_loop {ro} : forall n t i, coded ro (get_next_loop n t i). Proof. loop get_next_loop. Defined.
#[export] Hint Resolve c_pop_any_loop c_get_next_loop : code.
Definition c_hash_table_pop_any t : coded false (hash_table_pop_any t). Proof. unfold hash_table_pop_any. code. Defined.
Definition c_get_next {ro} t i : coded ro (get_next t i). Proof. unfold get_next. code. Defined.
#[export] Hint Resolve c_get_next : code.
Definition c_hash_table_get_any {ro} t : coded ro (hash_table_get_any t). Proof. unfold hash_table_get_any. code. Defined.
Definition c_hash_table_get_other {ro} e : coded ro (hash_table_get_other e). Proof. unfold hash_table_get_other. code. Defined.
Definition c_hash_table_empty {ro} t : coded ro (hash_table_empty t). Proof. unfold hash_table_empty. code. Defined.

(** ** AVL trees *)
Definition c_st_left a v : coded false (st_left a v). Proof. unfold st_left. code. Defined.
Definition c_st_right a v : coded false (st_right a v). Proof. unfold st_right. code. Defined.
Definition c_st_parent a v : coded false (st_parent a v). Proof. unfold st_parent. code. Defined.
Definition c_st_balance a v : coded false (st_balance a v). Proof. unfold st_balance. code. Defined.
Definition c_st_root a v : coded false (st_root a v). Proof. unfold st_root. code. Defined.
Definition c_st_tsize a v : coded false (st_tsize a v). Proof. unfold st_tsize. code. Defined.
#[export] Hint Resolve c_st_left c_st_right c_st_parent c_st_balance c_st_root c_st_tsize : code.
Definition c_avl_elem_get_key {ro} e : coded ro (avl_elem_get_key e). Proof. unfold avl_elem_get_key. code. Defined.
Definition c_avl_elem_get_value {ro} e : coded ro (avl_elem_get_value e). Proof. unfold avl_elem_get_value. code. Defined.
Definition c_make_avl_tree_2 c o : coded false (make_avl_tree_2 c o). Proof. unfold make_avl_tree_2. code. Defined.
Definition c_make_avl_tree c : coded false (make_avl_tree c). Proof. unfold make_avl_tree, make_avl_tree_2. code. Defined.
Definition c_destroy_subtree : forall n e, coded false (destroy_subtree n e). Proof. loop destroy_subtree. Defined.
#[export] Hint Resolve c_destroy_subtree c_make_avl_tree_2 : code.
Definition c_destroy_avl_tree t : coded false (destroy_avl_tree t). Proof. unfold destroy_avl_tree, destroy_avl_tree_within. code. Defined.
Definition c_make_element k v : coded false (make_element k v). Proof. unfold make_element. code. Defined.
Definition c_destroy_avl_element e : coded false (destroy_avl_element e). Proof. unfold destroy_avl_element. code. Defined.
Definition c_avl_tree_size {ro} t : coded ro (avl_tree_size t). Proof. unfold avl_tree_size. code. Defined.
Definition c_aget_loop {ro} call : forall n t k o e c, coded ro (AvlModel.get_loop call n t k o e c). Proof. loop AvlModel.get_loop. Defined.
#[export] Hint Resolve c_make_element c_destroy_avl_element c_aget_loop : code.
Definition c_avl_tree_get {ro} call t k : coded ro (avl_tree_get call t k). Proof. unfold avl_tree_get, avl_tree_get_counted. code. Defined.
Definition c_rightmost {ro} : forall n a, coded ro (rightmost n a). Proof. loop rightmost. Defined.
Definition c_leftmost {ro} : forall n a, coded ro (leftmost n a). Proof. loop leftmost. Defined.
#[export] Hint Resolve c_avl_tree_get c_rightmost c_leftmost : code.
Definition c_previous_descendant {ro} e : coded ro (previous_descendant e). Proof. unfold previous_descendant. code. Defined.
Definition c_next_descendant {ro} e : coded ro (next_descendant e). Proof. unfold next_descendant. code. Defined.
Definition c_climb_left {ro} : forall n e, coded ro (climb_left n e). Proof. loop climb_left. Defined.
Definition c_climb_right {ro} : forall n e, coded ro (climb_right n e). Proof. loop climb_right. Defined.
#[export] Hint Resolve c_previous_descendant c_next_descendant c_climb_left c_climb_right : code.
Definition c_avl_tree_previous {ro} e : coded ro (avl_tree_previous e). Proof. unfold avl_tree_previous. code. Defined.
Definition c_avl_tree_next {ro} e : coded ro (avl_tree_next e). Proof. unfold avl_tree_next. code. Defined.
Definition c_before_loop {ro} call g : forall n t k o e c i, coded ro (before_loop call g n t k o e c i). Proof. loop before_loop. Defined.
Definition c_after_loop {ro} call g : forall n t k o e c i, coded ro (after_loop call g n t k o e c i). Proof. loop after_loop. Defined.
#[export] Hint Resolve c_before_loop c_after_loop : code.
Definition c_avl_tree_get_before {ro} call t k : coded ro (avl_tree_get_before call t k). Proof. unfold avl_tree_get_before, avl_tree_get_before_counted. code. Defined.
Definition c_avl_tree_get_on_or_before {ro} call t k : coded ro (avl_tree_get_on_or_before call t k). Proof. unfold avl_tree_get_on_or_before, avl_tree_get_on_or_before_counted. code. Defined.
Definition c_avl_tree_get_after {ro} call t k : coded ro (avl_tree_get_after call t k). Proof. unfold avl_tree_get_after, avl_tree_get_after_counted. code. Defined.
Definition c_avl_tree_get_on_or_after {ro} call t k : coded ro (avl_tree_get_on_or_after call t k). Proof. unfold avl_tree_get_on_or_after, avl_tree_get_on_or_after_counted. code. Defined.
Definition c_adopt e v : coded false (adopt e v). Proof. unfold adopt. code. Defined.
#[export] Hint Resolve c_adopt : code.
Definition c_rotate_right e : coded false (rotate_right e). Proof. unfold rotate_right. code. Defined.
Definition c_rotate_left e : coded false (rotate_left e). Proof. unfold rotate_left. code. Defined.
Definition c_ld_ploc {ro} p : coded ro (ld_ploc p). Proof. unfold ld_ploc. code. Defined.
Definition c_st_ploc p v : coded false (st_ploc p v). Proof. unfold st_ploc. code. Defined.
#[export] Hint Resolve c_rotate_right c_rotate_left c_ld_ploc c_st_ploc : code.
Definition c_put_left r (R : forall p, coded false (r p)) t p e : coded false (put_left r t p e). Proof. unfold put_left. code. Defined.
Definition c_put_right r (R : forall p, coded false (r p)) t p e : coded false (put_right r t p e). Proof. unfold put_right. code. Defined.
Definition c_substitute t n o : coded false (substitute t n o). Proof. unfold substitute. code. Defined.
#[export] Hint Resolve c_put_left c_put_right c_substitute : code.
Definition c_put call : forall n t p e, coded false (put call n t p e). Proof. loop put; apply c_put_left || apply c_put_right; auto. Defined.
#[export] Hint Resolve c_put : code.
Definition c_avl_tree_put call t k v : coded false (avl_tree_put call t k v). Proof. unfold avl_tree_put, avl_tree_put_counted, avl_tree_put_within. code. Defined.
Definition c_leaf_element {ro} e : coded ro (leaf_element e). Proof. unfold leaf_element. code. Defined.
Definition c_adjacent_descendant {ro} e : coded ro (adjacent_descendant e). Proof. unfold adjacent_descendant. code. Defined.
Definition c_relink up (U : forall e, coded false (up e)) s t e n : coded false (relink up s t e n). Proof. unfold relink. code. Defined.
#[export] Hint Resolve c_leaf_element c_adjacent_descendant c_relink : code.
Definition c_lighten_right up (U : forall e, coded false (up e)) t e : coded false (lighten_right up t e). Proof. unfold lighten_right. code. Defined.
Definition c_lighten_left up (U : forall e, coded false (up e)) t e : coded false (lighten_left up t e). Proof. unfold lighten_left. code. Defined.
#[export] Hint Resolve c_lighten_right c_lighten_left : code.
Definition c_lighten_parent : forall n t e, coded false (lighten_parent n t e). Proof. loop lighten_parent; apply c_lighten_right || apply c_lighten_left; auto. Defined.
Definition c_exchange t a b : coded false (exchange t a b). Proof. unfold exchange. code. Defined.
#[export] Hint Resolve c_lighten_parent c_exchange : code.
Definition c_sink : forall n t e, coded false (sink n t e). Proof. loop sink. Defined.
#[export] Hint Resolve c_sink : code.
Definition c_avl_tree_detach t e : coded false (avl_tree_detach t e). Proof. unfold avl_tree_detach, avl_tree_detach_within. code. Defined.
#[export] Hint Resolve c_avl_tree_detach : code.
Definition c_avl_tree_remove t e : coded false (avl_tree_remove t e). Proof. unfold avl_tree_remove. code. Defined.
Definition c_avl_tree_pop call t k : coded false (avl_tree_pop call t k). Proof. unfold avl_tree_pop. code. Defined.
Definition c_avl_tree_empty {ro} t : coded ro (avl_tree_empty t). Proof. unfold avl_tree_empty. code. Defined.
#[export] Hint Resolve c_avl_tree_empty : code.
Definition c_avl_tree_get_first {ro} t : coded ro (avl_tree_get_first t). Proof. unfold avl_tree_get_first. code. Defined.
Definition c_avl_tree_get_last {ro} t : coded ro (avl_tree_get_last t). Proof. unfold avl_tree_get_last. code. Defined.
#[export] Hint Resolve c_avl_tree_get_first c_avl_tree_get_last : code.
Definition c_avl_tree_pop_first t : coded false (avl_tree_pop_first t). Proof. unfold avl_tree_pop_first. code. Defined.
Definition c_avl_tree_pop_last t : coded false (avl_tree_pop_last t). Proof. unfold avl_tree_pop_last. code. Defined.
Definition c_copy_tree : forall n e, coded false (copy_tree n e). Proof. loop copy_tree. Defined.
#[export] Hint Resolve c_copy_tree : code.
Definition c_avl_tree_copy t : coded false (avl_tree_copy t). Proof. unfold avl_tree_copy, avl_tree_copy_within. code. Defined.

(** ** Integer sets and priority queues *)
Definition c_field {ro} a i : coded ro (field a i). Proof. unfold field. code. Defined.
Definition c_set_field a i v : coded false (set_field a i v). Proof. unfold set_field. code. Defined.
Definition c_fsfree a : coded false (fsfree a). Proof. unfold fsfree. code. Defined.
#[export] Hint Resolve c_field c_set_field c_fsfree : code.
Definition c_make_intset j n : coded false (h_make_intset j n). Proof. unfold h_make_intset. code. Defined.
Definition c_destroy_intset s : coded false (h_destroy_intset s). Proof. unfold h_destroy_intset. code. Defined.
Definition c_fill_loop : forall n s i, coded false (h_fill_loop n s i). Proof. loop h_fill_loop. Defined.
#[export] Hint Resolve c_fill_loop : code.
Definition c_intset_fill s : coded false (h_intset_fill s). Proof. unfold h_intset_fill. code. Defined.
Definition c_intset_add s e : coded false (h_intset_add s e). Proof. unfold h_intset_add. code. Defined.
Definition c_intset_remove s e : coded false (h_intset_remove s e). Proof. unfold h_intset_remove. code. Defined.
Definition c_intset_has {ro} s e : coded ro (h_intset_has s e). Proof. unfold h_intset_has. code. Defined.
Definition c_intset_find_next {ro} s e b : coded ro (h_intset_find_next s e b). Proof. unfold h_intset_find_next. code. Defined.
Definition c_make_priority_queue j c : coded false (h_make_priority_queue j c). Proof. unfold h_make_priority_queue. code. Defined.
Definition c_destroy_priority_queue q : coded false (h_destroy_priority_queue q). Proof. unfold h_destroy_priority_queue. code. Defined.
Definition c_stored {ro} q i : coded ro (stored q i). Proof. unfold stored. code. Defined.
Definition c_compare {ro} cd q x y : coded ro (compare cd q x y). Proof. unfold compare. code. Defined.
Definition c_assign q s v l : coded false (h_assign q s v l). Proof. unfold h_assign. code. Defined.
#[export] Hint Resolve c_stored c_compare c_assign : code.
Definition c_raise_loop cd : forall n q s v l, coded false (h_raise_loop cd n q s v l). Proof. loop h_raise_loop. Defined.
Definition c_rounds {ro} q : coded ro (rounds q). Proof. unfold rounds. code. Defined.
#[export] Hint Resolve c_raise_loop c_rounds : code.
Definition c_raise cd q s v l : coded false (h_raise cd q s v l). Proof. unfold h_raise. code. Defined.
Definition c_realloc j a n : coded false (h_realloc j a n). Proof. unfold h_realloc. code. Defined.
#[export] Hint Resolve c_raise c_realloc : code.
Definition c_priorq_enqueue cd j q v : coded false (h_priorq_enqueue cd j q v). Proof. unfold h_priorq_enqueue. code. Defined.
Definition c_priorq_size {ro} q : coded ro (h_priorq_size q). Proof. unfold h_priorq_size. code. Defined.
Definition c_lower_loop cd : forall n q s v l, coded false (h_lower_loop cd n q s v l). Proof. loop h_lower_loop. Defined.
#[export] Hint Resolve c_priorq_size c_lower_loop : code.
Definition c_lower cd q s v l : coded false (h_lower cd q s v l). Proof. unfold h_lower. code. Defined.
Definition c_last q : coded false (h_last q). Proof. unfold h_last. code. Defined.
#[export] Hint Resolve c_lower c_last : code.
Definition c_priorq_dequeue cd q : coded false (h_priorq_dequeue cd q). Proof. unfold h_priorq_dequeue. code. Defined.
Definition c_priorq_peek {ro} q : coded ro (h_priorq_peek q). Proof. unfold h_priorq_peek. code. Defined.
Definition c_priorq_pop q : coded false (h_priorq_pop q). Proof. unfold h_priorq_pop. code. Defined.
Definition c_priorq_remove cd q l : coded false (h_priorq_remove cd q l). Proof. unfold h_priorq_remove. code. Defined.

(** ** Byte arrays *)
Definition c_make_byte_array j m : coded false (h_make_byte_array j m). Proof. unfold h_make_byte_array. code. Defined.
Definition c_share_byte_array a : coded false (h_share_byte_array a). Proof. unfold h_share_byte_array. code. Defined.
Definition c_destroy_byte_array a : coded false (h_destroy_byte_array a). Proof. unfold h_destroy_byte_array. cbv zeta. code. Defined.
Definition c_resize_block j d n : coded false (h_resize_block j d n). Proof. unfold h_resize_block. code. Defined.
#[export] Hint Resolve c_resize_block : code.
Definition c_ensure_space j a n : coded false (h_ensure_space j a n). Proof. unfold h_ensure_space. code. Defined.
Definition c_store a i b : coded false (h_store a i b). Proof. unfold h_store. code. Defined.
Definition c_set_cursor a c : coded false (h_set_cursor a c). Proof. unfold h_set_cursor. code. Defined.
#[export] Hint Resolve c_ensure_space c_store c_set_cursor : code.
Definition c_copy_from a i src n : coded false src -> coded false (h_copy_from a i src n). Proof. intros S. unfold h_copy_from. code. Defined.
Definition c_byte_array_copy j a pos src n : coded false src -> coded false (h_byte_array_copy j a pos src n).
Proof. intros S. unfold h_byte_array_copy. code. apply c_copy_from, S. Defined.
Definition c_byte_array_append j a src n : coded false src -> coded false (h_byte_array_append j a src n).
Proof. intros S. unfold h_byte_array_append. code. apply c_copy_from, S. Defined.
Definition c_byte_array_copy_string j a pos src : coded false src -> coded false (h_byte_array_copy_string j a pos src).
Proof. intros S. unfold h_byte_array_copy_string. code. apply c_byte_array_copy, S. Defined.
Definition c_byte_array_append_string j a src : coded false src -> coded false (h_byte_array_append_string j a src).
Proof. intros S. unfold h_byte_array_append_string. code. apply c_byte_array_append, S. Defined.
Definition c_byte_array_append_stream j a cb n : coded false (h_byte_array_append_stream j a cb n). Proof. unfold h_byte_array_append_stream. cbv zeta. code. Defined.
Definition c_byte_array_clear a : coded false (h_byte_array_clear a). Proof. unfold h_byte_array_clear. code. Defined.
Definition c_byte_array_resize j a n c : coded false (h_byte_array_resize j a n c). Proof. unfold h_byte_array_resize. code. Defined.
Definition c_byte_array_data {ro} a : coded ro (h_byte_array_data a). Proof. unfold h_byte_array_data. code. Defined.
Definition c_byte_array_size {ro} a : coded ro (h_byte_array_size a). Proof. unfold h_byte_array_size. code. Defined.
