(** The specification of sibling trees against the trees used in the proofs *)
From Verif Require Import Base BaseFacts RBModel RBSpec RBTree RBOrder RBInsert RBPop.
From Coq Require Import ZArith List Bool Lia Sorting.Permutation Sorting.Sorted.
Import ListNotations.
Open Scope Z_scope.

Lemma Sib_tree : forall st o l, Sib st o l -> exists t, rep st t /\ rid t = o /\ ids t = l.
Proof.
  intros st o l H. induction H as [|i l r Hl (tl & L1 & L2 & L3) Hr (tr & R1 & R2 & R3)].
  - exists Lf. cbn. auto.
  - exists (Nd (d_red (st i)) tl i tr). cbn. rewrite L3, R3. repeat split; auto.
Qed.
Lemma tree_Sib : forall st t, rep st t -> Sib st (rid t) (ids t).
Proof.
  intros st t. induction t as [|c l IHl i r IHr]; cbn; [constructor|]. intros (A & B & C & D & E). constructor; rewrite ?B, ?C; auto.
Qed.
Lemma RB_tree : forall st t c n, rep st t -> RB st (rid t) c n -> tred t = c /\ nrr t /\ bh t n.
Proof.
  intros st t. induction t as [|k l IHl i r IHr]; cbn; intros c n Hr H.
  - inversion H; subst. repeat split; auto.
  - destruct Hr as (A & B & C & D & E). inversion H as [|j m R1 R2 R3|j a b m R1 R2 R3]; subst.
    + rewrite B in R2. rewrite C in R3. destruct (IHl _ _ D R2) as (x1 & x2 & x3), (IHr _ _ E R3) as (y1 & y2 & y3). rewrite R1. repeat split; auto.
    + rewrite B in R2. rewrite C in R3. destruct (IHl _ _ D R2) as (x1 & x2 & x3), (IHr _ _ E R3) as (y1 & y2 & y3). rewrite R1. repeat split; auto; try discriminate. eauto.
Qed.
Lemma tree_RB : forall st t n, rep st t -> nrr t -> bh t n -> RB st (rid t) (tred t) n.
Proof.
  intros st t. induction t as [|k l IHl i r IHr]; cbn; intros n Hr Hn Hb.
  - subst n. constructor.
  - destruct Hr as (A & B & C & D & E), Hn as (N1 & N2 & N3). destruct k.
    + destruct (N1 eq_refl) as [x y], Hb as [b1 b2]. constructor; auto; rewrite ?B, ?C; [rewrite <- x | rewrite <- y]; auto.
    + destruct Hb as (m & -> & b1 & b2). econstructor; auto; rewrite ?B, ?C; eauto.
Qed.
Lemma NR_tree : forall st t c, rep st t -> NoRedRed st (rid t) c -> tred t = c /\ nrr t.
Proof.
  intros st t. induction t as [|k l IHl i r IHr]; cbn; intros c Hr H.
  - inversion H; subst. auto.
  - destruct Hr as (A & B & C & D & E). inversion H as [|j R1 R2 R3|j a b R1 R2 R3]; subst.
    + rewrite B in R2. rewrite C in R3. destruct (IHl _ D R2) as (x1 & x2), (IHr _ E R3) as (y1 & y2). rewrite R1. repeat split; auto.
    + rewrite B in R2. rewrite C in R3. destruct (IHl _ D R2) as (x1 & x2), (IHr _ E R3) as (y1 & y2). rewrite R1. repeat split; auto; try discriminate.
Qed.
Lemma tree_NR : forall st t, rep st t -> nrr t -> NoRedRed st (rid t) (tred t).
Proof.
  intros st t. induction t as [|k l IHl i r IHr]; cbn; intros Hr Hn.
  - constructor.
  - destruct Hr as (A & B & C & D & E), Hn as (N1 & N2 & N3). destruct k.
    + destruct (N1 eq_refl) as [x y]. constructor; auto; rewrite ?B, ?C; [rewrite <- x | rewrite <- y]; auto.
    + econstructor; auto; rewrite ?B, ?C; eauto.
Qed.
Lemma RB_NR : forall st o c n, RB st o c n -> NoRedRed st o c.
Proof. intros st o c n H. induction H; [constructor|constructor; auto|econstructor; eauto]. Qed.

Lemma lex_iff : forall a b, lex a b = true <-> str_before a b.
Proof.
  induction a as [|x a IH]; intros [|y b]; cbn.
  - split; [discriminate|]. intros (p & [(z & b' & <- & E)|(u & a' & z & b' & E & _)]); [discriminate|destruct p; discriminate].
  - split; auto. intros _. exists []. left. exists y, b. auto.
  - split; [discriminate|]. intros (p & [(z & b' & <- & E)|(u & a' & z & b' & _ & E & _)]); [discriminate|destruct p; discriminate].
  - split.
    + intros H. destruct (x <? y) eqn:Q.
      * exists []. right. exists x, a, y, b. repeat split; auto. lia.
      * cbn in H. apply andb_true_iff in H as [H1 H2]. apply (proj1 (IH b)) in H2 as (p & H2). assert (x = y) by lia. subst y. exists (x :: p). destruct H2 as [(z & b' & -> & ->)|(u & a' & z & b' & -> & -> & L)]; [left|right]; cbn; eauto 10.
    + intros (p & H). destruct p as [|w p].
      * destruct H as [(z & b' & E & _)|(u & a' & z & b' & E1 & E2 & L)]; [discriminate|]. injection E1 as -> ->. injection E2 as -> ->. replace (u <? z) with true by lia. auto.
      * assert (Q : x = w /\ y = w /\ str_before a b).
        { destruct H as [(z & b' & E1 & E2)|(u & a' & z & b' & E1 & E2 & L)]; cbn in *; injection E1; injection E2; intros; subst; repeat split; auto; exists p; [left|right]; eauto 10. }
        destruct Q as (-> & -> & S). rewrite (proj2 (IH b) S), Z.eqb_refl. rewrite orb_true_r. auto.
Qed.
Lemma name_lt_iff : forall upper a b, name_lt upper a b = true <-> before upper a b.
Proof.
  intros. unfold name_lt, before, zlen. destruct (Z.of_nat (length a) =? Z.of_nat (length b)) eqn:E.
  - rewrite lex_iff. intuition; try lia.
  - split; [intros; left; lia|]. intros [H|[H _]]; lia.
Qed.
Lemma name_eq_iff : forall upper a b, name_eq upper a b = true <-> alike upper a b.
Proof.
  intros. unfold name_eq, alike, zlen. destruct (Z.of_nat (length a) =? Z.of_nat (length b)) eqn:E.
  - rewrite zlist_eqb_spec. intuition; lia.
  - split; [discriminate|]. intros [H _]; lia.
Qed.
Lemma in_order_iff : forall upper st l, in_order upper st l <-> sorted upper st l.
Proof.
  intros. unfold in_order, sorted. split; apply sorted_ext; intros a b _ _; unfold ent_lt; apply name_lt_iff.
Qed.

Lemma children_holds : forall st self l, has_children st self l -> exists t, holds st self t /\ ids t = l.
Proof.
  intros st self l [A B C D E]. destruct (Sib_tree _ _ _ A) as (t & T1 & T2 & T3). subst l. exists t. split; auto. constructor; auto.
  - intros X. specialize (E _ X). unfold HEAD in E. lia.
  - unfold HEAD. lia.
Qed.
Lemma holds_children : forall st self t, holds st self t -> 0 <= self -> (forall i, In i (ids t) -> 0 <= i) -> has_children st self (ids t).
Proof. intros st self t [A B C D E F] H1 H2. constructor; auto. rewrite A. apply tree_Sib. auto. Qed.
