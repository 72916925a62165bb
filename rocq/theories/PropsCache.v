(** C15: the LRU cache (src/aaf2/cache.py) is a bounded map that evicts the least recently used key. *)
From Verif Require Import Base BaseFacts LRUModel LRUProofs LRUSpec LRUHistory.
From Coq Require Import ZArith List Bool Lia.
Import ListNotations.
Open Scope nat_scope.

(** For every capacity and every sequence of operations, everything the caller observes (values,
    membership, KeyErrors) is what a plain list of at most [size+1] pairs in recency order gives. *)
Theorem C15_lru_is_recency_list : forall K V (keqb : K -> K -> bool)
  (keqb_spec : forall a b, keqb a b = true <-> a = b) size os,
  snd (run K V keqb (init K V size) os) = snd (spec_run K V keqb (S size) [] os).
Proof.
  intros K V keqb ks size os.
  exact (proj1 (run_refines K V keqb ks (S size) os (init K V size) [] ltac:(lia) (Inv_init K V size))).
Qed.
Print Assumptions C15_lru_is_recency_list.

(** A lookup never returns anything but the value of the latest assignment to that key that was
    not deleted since. *)
Theorem C15_lru_no_stale_value : forall K V (keqb : K -> K -> bool)
  (keqb_spec : forall a b, keqb a b = true <-> a = b) size os k v,
  snd (get K V (fst (run K V keqb (init K V size) os)) k) = Some v -> last_set K V keqb os k = Some v.
Proof. exact get_sound. Qed.
Print Assumptions C15_lru_no_stale_value.

(** A key that was assigned stays as long as at most [size] other keys were used since. *)
Theorem C15_lru_retains_recent : forall K V (keqb : K -> K -> bool)
  (keqb_spec : forall a b, keqb a b = true <-> a = b) size h1 h2 k v ks,
  no_delete_of K V k h2 -> no_set_of K V k h2 -> length ks <= size ->
  (forall o x, In o h2 -> In x (touched K V o) -> x = k \/ In x ks) ->
  snd (get K V (fst (run K V keqb (init K V size) (h1 ++ OSet K V k v :: h2))) k) = Some v.
Proof. exact get_retained. Qed.
Print Assumptions C15_lru_retains_recent.

(** The number of keys present never exceeds [size+1]. *)
Theorem C15_lru_bounded : forall K V (keqb : K -> K -> bool)
  (keqb_spec : forall a b, keqb a b = true <-> a = b) size os ks,
  NoDup ks -> (forall k, In k ks -> contains K V (fst (run K V keqb (init K V size) os)) k = true) ->
  length ks <= S size.
Proof.
  intros K V keqb kspec size os ks ND H.
  destruct (run_refines K V keqb kspec (S size) os (init K V size) [] ltac:(lia) (Inv_init K V size)) as [_ HI].
  set (s := fst (run K V keqb (init K V size) os)) in *.
  set (l := fst (spec_run K V keqb (S size) [] os)) in *.
  pose proof (Inv_len K V _ _ _ HI) as HL.
  apply Nat.le_trans with (length (map fst l)); [|rewrite map_length; auto].
  apply NoDup_incl_length; auto. intros k Hk. specialize (H k Hk).
  destruct (step_refines K V keqb kspec (S size) s l (OHas K V k) ltac:(lia) HI) as [HO _].
  cbn in HO. rewrite H in HO. destruct (al_get K V keqb l k) eqn:E; [|discriminate].
  apply (al_get_In K V keqb kspec) in E. apply in_map_iff. exists (k, v). auto.
Qed.
Print Assumptions C15_lru_bounded.

(** Non-vacuity: capacity 3 (size 2); the fourth key evicts the least recently used one (2). *)
Example C15_run : snd (run nat nat Nat.eqb (init nat nat 2)
    [OSet _ _ 1 10; OSet _ _ 2 20; OSet _ _ 3 30; OGet _ _ 1; OSet _ _ 4 40;
     OGet _ _ 2; OGet _ _ 1; OGet _ _ 3; ODel _ _ 3; ODel _ _ 3; OHas _ _ 4])
  = [RUnit _; RUnit _; RUnit _; RVal _ (Some 10); RUnit _; RVal _ None; RVal _ (Some 10);
     RVal _ (Some 30); RUnit _; RErr _ KeyError; RBool _ true].
Proof. vm_compute. reflexivity. Qed.

Example C15_retained_case :
  snd (get nat nat (fst (run nat nat Nat.eqb (init nat nat 2)
    ([OSet _ _ 1 10] ++ OSet _ _ 7 70 :: [OSet _ _ 2 20; OGet _ _ 1; OSet _ _ 2 21]))) 7) = Some 70.
Proof.
  apply C15_lru_retains_recent with (ks := [1; 2]).
  - intros; apply Nat.eqb_eq.
  - repeat constructor; discriminate.
  - repeat constructor; discriminate.
  - repeat constructor.
  - intros o x Ho Hx. cbn in Ho. repeat destruct Ho as [<-|Ho]; cbn in Hx; intuition subst; cbn; auto.
Qed.
