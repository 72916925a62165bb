(** Look-ups: find, exists and listdir against the map of paths. *)
From Coq Require Import ZArith List Bool Lia Sorting.Permutation Sorting.Sorted.
Import ListNotations.
From Verif Require Import Base BaseFacts LRUModel RBModel RBTree RBOrder RBInsert NsModel NsSpec NsPath NsInv.
Open Scope Z_scope.
Notation length := List.length.

Lemma filter_length_le : forall A (f : A -> bool) l, (length (filter f l) <= length l)%nat.
Proof. intros A f l. induction l as [|x l IH]; cbn; auto. destruct (f x); cbn; lia. Qed.
(** position in the recency list *)
Definition rank (c : list (Z * dict)) (i : Z) (k : nat) : Prop := exists a d b, c = a ++ (i, d) :: b /\ (length a <= k)%nat.
Lemma rank_cget : forall c i k, rank c i k -> exists d, cget c i = Some d.
Proof.
  intros c i k (a & d & b & -> & _). induction a as [|[j x] a IH]; unfold cget in *; cbn; [rewrite Z.eqb_refl; eauto|]. destruct (i =? j); eauto.
Qed.
Lemma rank_le : forall c i k k', rank c i k -> (k <= k')%nat -> rank c i k'.
Proof. intros c i k k' (a & d & b & E & H) L. exists a, d, b. split; auto. lia. Qed.
Lemma rank_cput : forall c i k j d, rank c i k -> rank (cput c j d) i (S k).
Proof.
  intros c i k j d (a & x & b & -> & H). unfold cput. destruct (Z.eq_dec i j) as [->|N].
  - exists [], d, (al_remove Z dict Z.eqb (a ++ (j, x) :: b) j). split; auto. cbn. lia.
  - exists ((j, d) :: filter (fun p => negb (j =? fst p)) a), x, (filter (fun p => negb (j =? fst p)) b). unfold al_remove. rewrite filter_app. cbn [filter fst]. replace (j =? i) with false by lia. cbn [negb].
    split; auto. cbn. pose proof (filter_length_le _ (fun p : Z * dict => negb (j =? fst p)) a). lia.
Qed.
Lemma rank_cadd : forall cap c i k j d, rank c i k -> (S k < cap)%nat -> rank (cadd cap c j d) i (S k).
Proof.
  intros cap c i k j d (a & x & b & -> & H) L. unfold cadd. rewrite firstn_app. replace (firstn (cap - 1) a) with a by (rewrite firstn_all2; auto; lia).
  destruct (cap - 1 - length a)%nat as [|m] eqn:E; [lia|]. cbn [firstn]. exists ((j, d) :: a), x, (firstn m b). split; auto. cbn. lia.
Qed.

Section Find.
Variable upper : list Z -> list Z.
Variables (per : Z) (cap : nat).
Notation Inv := (Inv upper per). 
Definition view (s : ns) (ch : Z -> list Z) : pmap := fun p => option_map (fun i => (i, d_kind (n_st s i))) (walk (nmof s) ch 0 p).
Definition wblocked (s : ns) (ch : Z -> list Z) (a : Z) (p : path) : Prop := exists q n r i, p = q ++ n :: r /\ walk (nmof s) ch a q = Some i /\ dirat s i = false.

Lemma only_cache_nm : forall s s', only_cache s s' -> nmof s' = nmof s /\ n_st s' = n_st s /\ n_par s' = n_par s /\ n_free s' = n_free s /\ n_secs s' = n_secs s /\ n_log s' = n_log s.
Proof. intros s s' [c ->]. repeat split. Qed.
Lemma only_cache_dir : forall s s' i, only_cache s s' -> dirat s' i = dirat s i.
Proof. intros s s' i [c ->]. reflexivity. Qed.
Lemma only_cache_view : forall s s' ch, only_cache s s' -> view s' ch = view s ch.
Proof. intros s s' ch [c ->]. reflexivity. Qed.

Definition kept (s s' : ns) (m : nat) : Prop := forall i k, rank (n_cache s) i k -> (k + m < cap)%nat -> rank (n_cache s') i (k + m).

Lemma descend_ok : forall p X s ch L a, Inv X s ch L -> In a L -> p <> [] ->
  (forall q n r i, p = q ++ n :: r -> walk (nmof s) ch a q = Some i -> ~ X i) ->
  exists s', Inv X s' ch L /\ only_cache s s' /\ kept s s' (length p) /\
    ((wblocked s ch a p /\ descend per cap s a p = Fail s' ValueError) \/
     (~ wblocked s ch a p /\ descend per cap s a p = Done s' (walk (nmof s) ch a p) /\
      (forall q n r, p = q ++ [n] -> walk (nmof s) ch a q = Some r -> rank (n_cache s') r 0))).
Proof.
  induction p as [|n p IH]; intros X s ch L a V Ha Hp HX; [tauto|]. cbn [descend].
  destruct (dirat s a) eqn:Da.
  2:{ exists s. split; auto. split; [apply only_cache_refl|]. split; [intros i k R _; eapply rank_le; eauto; lia|]. left. split; [exists [], n, p, a; auto|]. unfold listdir_dict. fold (dirat s a). rewrite Da. reflexivity. }
  destruct (listdir_ok upper per cap X s ch L a V Ha Da) as (s1 & l & E & P & V1 & O1 & C1); [apply (HX [] n p a); auto|]. rewrite E. cbn [nbind].
  assert (K1 : kept s s1 1). { intros i k R Lk. replace (k + 1)%nat with (S k) by lia. destruct C1 as [-> | ->]; [apply rank_cput; auto|apply rank_cadd; auto; lia]. }
  assert (R1 : rank (n_cache s1) a 0). { destruct C1 as [-> | ->]; unfold cput, cadd; eexists [], _, _; (split; [reflexivity|cbn; lia]). }
  assert (Dl : distinct (nmof s) l). { intros i j Hi Hj. apply (inv_distinct _ _ _ _ _ _ V a); eapply Permutation_in; eauto. }
  destruct (only_cache_nm _ _ O1) as (Nm & St & _).
  cbn [walk]. destruct (dget (dict_of (nmof s) l) n) as [j|] eqn:G.
  - apply dget_dict_inv in G as [G1 G2]. assert (Hj : In j (ch a)) by (eapply Permutation_in; eauto).
    assert (F : List.find (fun j => zlist_eqb (nmof s j) n) (ch a) = Some j) by (apply find_kid; [apply (inv_distinct _ _ _ _ _ _ V)|auto]). rewrite F.
    destruct p as [|m p].
    + exists s1. split; auto. split; auto. split; [exact K1|]. right. split; [|split].
      * intros (q & x & r & i & E1 & E2 & E3). destruct q as [|y q]; [cbn in E2; injection E2 as <-; congruence|]. destruct q; discriminate.
      * reflexivity.
      * intros q x r E1 E2. destruct q as [|y q]; [cbn in E2; injection E2 as <-; auto|]. destruct q; discriminate.
    + destruct (IH X s1 ch L j) as (s2 & V2 & O2 & K2 & H2); auto.
      * apply (v_sub _ _ _ _ _ _ V) in Hj. tauto.
      * discriminate.
      * intros q x r i E1 E2. rewrite Nm in E2. apply (HX (n :: q) x r i); [rewrite E1; auto|]. cbn. rewrite F. auto.
      * exists s2. split; auto. split; [eapply only_cache_trans; eauto|]. split.
        { intros i k R Lk. cbn [length] in *. replace (k + S (S (length p)))%nat with ((k + 1) + S (length p))%nat by lia. apply K2; [apply K1; auto; lia|lia]. }
        assert (BL : wblocked s ch a (n :: m :: p) <-> wblocked s1 ch j (m :: p)).
        { unfold wblocked. rewrite Nm. split.
          - intros (q & x & r & i & E1 & E2 & E3). destruct q as [|y q]; [cbn in E2; injection E2 as <-; congruence|]. injection E1 as <- E1. cbn in E2. rewrite F in E2. exists q, x, r, i. rewrite (only_cache_dir _ _ _ O1). auto.
          - intros (q & x & r & i & E1 & E2 & E3). rewrite (only_cache_dir _ _ _ O1) in E3. exists (n :: q), x, r, i. rewrite E1. cbn. rewrite F. auto. }
        rewrite BL. rewrite Nm in H2. destruct H2 as [[H2 H3]|(H2 & H3 & H4)]; [left; auto|right; split; auto; split; auto].
        intros q x r E1 E2. destruct q as [|y q]; [discriminate|]. injection E1 as <- E1. cbn in E2. rewrite F in E2. eauto.
  - pose proof (proj1 (dget_dict_none _ _ _) G) as G'. assert (F : List.find (fun j => zlist_eqb (nmof s j) n) (ch a) = None).
    { apply find_nokid. intros j Hj. apply G'. eapply Permutation_in; [symmetry; exact P|auto]. }
    rewrite F. exists s1. split; auto. split; auto. split.
    { intros i k R Lk. cbn [length] in *. eapply rank_le; [apply (K1 i k R); lia|lia]. }
    right. split; [|split; auto].
    + intros (q & x & r & i & E1 & E2 & E3). destruct q as [|y q]; [cbn in E2; injection E2 as <-; congruence|]. injection E1 as <- E1. cbn in E2. rewrite F in E2. discriminate.
    + intros q x r E1 E2. destruct q as [|y q]; [cbn in E2; injection E2 as <-; auto|]. injection E1 as <- E1. cbn in E2. rewrite F in E2. discriminate.
Qed.

Lemma find_ok : forall p X s ch L, Inv X s ch L -> clean p ->
  (forall q n r i, p = q ++ n :: r -> walk (nmof s) ch 0 q = Some i -> ~ X i) ->
  exists s', Inv X s' ch L /\ only_cache s s' /\ kept s s' (length p) /\
    ((wblocked s ch 0 p /\ find per cap s (text_of p) = Fail s' ValueError) \/
     (~ wblocked s ch 0 p /\ find per cap s (text_of p) = Done s' (walk (nmof s) ch 0 p) /\
      (forall q n r, p = q ++ [n] -> walk (nmof s) ch 0 q = Some r -> rank (n_cache s') r 0))).
Proof.
  intros p X s ch L V C HX. unfold find. rewrite text_root by auto. destruct p as [|n p].
  - exists s. split; auto. split; [apply only_cache_refl|]. split; [intros i k R _; eapply rank_le; eauto; lia|]. right. split; [|split; auto].
    + intros (q & x & r & i & E & _). destruct q; discriminate.
    + intros q x r E. destruct q; discriminate.
  - rewrite split_text by (auto; discriminate). apply descend_ok; auto; [apply (v_root _ _ _ _ _ _ V)|discriminate].
Qed.

(** against the specification's vocabulary *)
Lemma view_Some : forall s ch p i k, view s ch p = Some (i, k) <-> walk (nmof s) ch 0 p = Some i /\ k = d_kind (n_st s i).
Proof. intros. unfold view. destruct (walk _ _ _ _) as [j|]; cbn; split; try congruence; try (intros [? ?]; discriminate). intros E. injection E as <- <-. auto. intros [E ->]. injection E as <-. auto. Qed.
Lemma view_None : forall s ch p, view s ch p = None <-> walk (nmof s) ch 0 p = None.
Proof. intros. unfold view. destruct (walk _ _ _ _); cbn; split; congruence. Qed.
Lemma blocked_iff : forall X s ch L p, Inv X s ch L -> (wblocked s ch 0 p <-> blocked (view s ch) p).
Proof.
  intros X s ch L p V. split.
  - intros (q & n & r & i & E1 & E2 & E3). exists q, n, r, i. split; auto. apply view_Some. split; auto. symmetry. eapply inv_notdir; eauto. eapply inv_live; eauto. apply (v_root _ _ _ _ _ _ V).
  - intros (q & n & r & i & E1 & E2). apply view_Some in E2 as [E2 E3]. exists q, n, r, i. split; auto. split; auto. unfold dirat. rewrite <- E3. reflexivity.
Qed.
(** a look-up gives what the specification says *)
Lemma find_looks : forall p s ch L, Inv (fun _ => False) s ch L -> clean p ->
  exists s', Inv (fun _ => False) s' ch L /\ only_cache s s' /\ kept s s' (length p) /\
    ((looks (view s ch) p (Err ValueError) /\ find per cap s (text_of p) = Fail s' ValueError) \/
     (looks (view s ch) p (Ok (view s ch p)) /\ find per cap s (text_of p) = Done s' (walk (nmof s) ch 0 p) /\
      (forall q n r, p = q ++ [n] -> walk (nmof s) ch 0 q = Some r -> rank (n_cache s') r 0))).
Proof.
  intros p s ch L V C. destruct (find_ok p _ s ch L V C) as (s' & V' & O & K & H); [auto|]. exists s'. split; auto. split; auto. split; auto.
  rewrite (blocked_iff _ _ _ _ _ V) in H. destruct H as [[H1 H2]|(H1 & H2 & H3)]; [left|right]; (split; [constructor; auto|auto]).
Qed.
End Find.
