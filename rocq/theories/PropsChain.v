(** C08: following a sector chain (cfb.py:1760-1785) terminates on every table and is exact. *)
From Verif Require Import Base BaseFacts CfbModel ChainSpec ChainProofs.
From Coq Require Import ZArith List Bool Lia.
Import ListNotations.
Open Scope Z_scope.

(** For every table and every start that is a sector number: the answer is the exact list of
    sectors if the chain ends, IndexError if it leaves the table, the "cyclic" error if it loops,
    and exactly one of these three cases applies (so the loop always terminates). *)
Theorem C08_chain_exact : forall tbl b, special_sid b = false ->
  (forall l, get_fat_chain tbl (Some b) = Ok l <-> chain_from tbl b l) /\
  (get_fat_chain tbl (Some b) = Err IndexError <-> chain_leaves tbl b) /\
  (get_fat_chain tbl (Some b) = Err CompoundError <-> chain_loops tbl b) /\
  ((exists l, chain_from tbl b l) \/ chain_leaves tbl b \/ chain_loops tbl b).
Proof.
  intros tbl b Hs.
  pose proof (get_chain_classify tbl b Hs) as HC.
  split; [|split; [|split]].
  - intros l. split; intros H.
    + destruct HC as [[l' [C E]]|[[C E]|[C E]]]; try congruence; auto.
    + apply get_chain_Ok; auto.
  - split; intros H.
    + destruct HC as [[l' [C E]]|[[C E]|[C E]]]; try congruence; auto.
    + destruct HC as [[l' [C E]]|[[C E]|[C E]]]; auto.
      * destruct (chain_from_excl _ _ _ C). contradiction.
      * destruct (leaves_not_loops _ _ H C).
  - split; intros H.
    + destruct HC as [[l' [C E]]|[[C E]|[C E]]]; try congruence; auto.
    + destruct HC as [[l' [C E]]|[[C E]|[C E]]]; auto.
      * destruct (chain_from_excl _ _ _ C). contradiction.
      * destruct (leaves_not_loops _ _ C H).
  - destruct HC as [[l' [C E]]|[[C E]|[C E]]]; eauto.
Qed.
Print Assumptions C08_chain_exact.

(** A chain that is returned has no repeated sector and lies inside the table. *)
Theorem C08_chain_distinct_in_table : forall tbl start l, get_fat_chain tbl start = Ok l ->
  NoDup l /\ forall x, In x l -> 0 <= x < zlen tbl.
Proof.
  intros tbl start l H. unfold get_fat_chain in H. destruct start as [b|].
  - destruct (_ || _ || _ || _); [inversion H; subst; split; [constructor|intros x []]|].
    destruct (loop_sound _ _ _ _ _ _ H) as [l' [E C]]. cbn in E. subst.
    split; [eapply chain_from_NoDup; eauto|]. intros x Hx. apply (chain_from_range _ _ _ C x Hx).
  - inversion H; subst. split; [constructor|intros x []].
Qed.
Print Assumptions C08_chain_distinct_in_table.

(** The absent start and the four marks give the empty chain. *)
Theorem C08_chain_special : forall tbl b, special_sid b = true ->
  get_fat_chain tbl (Some b) = Ok [] /\ get_fat_chain tbl None = Ok [].
Proof. intros tbl b H. unfold get_fat_chain. unfold special_sid in H. rewrite H. auto. Qed.
Print Assumptions C08_chain_special.

(** the three outcomes occur *)
Example C08_ok : get_fat_chain [2; 4; 1; 9; ENDOFCHAIN] (Some 0) = Ok [0; 2; 1; 4].
Proof. vm_compute. reflexivity. Qed.
Example C08_cycle : get_fat_chain [1; 2; 3; 1; 0] (Some 4) = Err CompoundError.
Proof. vm_compute. reflexivity. Qed.
Example C08_leaves : get_fat_chain [1; 2; 7] (Some 0) = Err IndexError.
Proof. vm_compute. reflexivity. Qed.
