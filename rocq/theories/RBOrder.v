(** The order of siblings, and contexts cut at a new entry *)
From Verif Require Import Base BaseFacts RBModel RBTree.
From Coq Require Import ZArith List Bool Lia Permutation Sorted.
Import ListNotations.
Open Scope Z_scope.
Notation length := List.length.

Lemma lex_irrefl : forall a, lex a a = false.
Proof. induction a as [|x a IH]; cbn; auto. rewrite IH. replace (x <? x) with false by lia. rewrite andb_false_r. auto. Qed.
Lemma lex_trans : forall a b c, lex a b = true -> lex b c = true -> lex a c = true.
Proof.
  induction a as [|x a IH]; intros [|y b] [|z c]; cbn; auto; try discriminate. intros H1 H2.
  apply orb_true_iff in H1, H2. apply orb_true_iff.
  destruct H1 as [H1|H1], H2 as [H2|H2]; try (apply andb_prop in H1 as [A1 B1]); try (apply andb_prop in H2 as [A2 B2]); try (left; lia).
  right. apply andb_true_iff. split; [lia|]. eapply IH; eauto.
Qed.
Lemma lex_total : forall a b, lex a b = false -> lex b a = false -> a = b.
Proof.
  induction a as [|x a IH]; intros [|y b]; cbn; auto; try discriminate. intros H1 H2.
  apply orb_false_iff in H1 as [A1 B1], H2 as [A2 B2]. assert (x = y) by lia. subst. rewrite Z.eqb_refl in *. cbn in *. f_equal. auto.
Qed.
Lemma lex_nil : forall a, lex a [] = false.
Proof. destruct a; auto. Qed.

Section Order.
Variable upper : list Z -> list Z.
Notation name_lt := (name_lt upper). Notation name_eq := (name_eq upper). Notation ent_lt := (ent_lt upper).

Lemma name_lt_irrefl : forall a, name_lt a a = false.
Proof. intros. unfold RBModel.name_lt. rewrite Z.eqb_refl. apply lex_irrefl. Qed.
Lemma name_lt_trans : forall a b c, name_lt a b = true -> name_lt b c = true -> name_lt a c = true.
Proof.
  unfold RBModel.name_lt. intros a b c H1 H2.
  destruct (zlen a =? zlen b) eqn:E1, (zlen b =? zlen c) eqn:E2, (zlen a =? zlen c) eqn:E3; try lia. eapply lex_trans; eauto.
Qed.
Lemma name_lt_asym : forall a b, name_lt a b = true -> name_lt b a = false.
Proof. intros a b H. destruct (name_lt b a) eqn:E; auto. pose proof (name_lt_trans _ _ _ H E). rewrite name_lt_irrefl in H0. discriminate. Qed.
Lemma name_total : forall a b, name_eq a b = false -> name_lt a b = false -> name_lt b a = true.
Proof.
  unfold RBModel.name_lt, RBModel.name_eq. intros a b H1 H2. rewrite (Z.eqb_sym (zlen b)). destruct (zlen a =? zlen b) eqn:E; [|lia].
  destruct (lex (upper b) (upper a)) eqn:F; auto. pose proof (lex_total _ _ H2 F) as X. rewrite X, zlist_eqb_refl in H1. discriminate.
Qed.

(** the false root comes before everything *)
Definition lo (st : store) (a b : Z) : Prop := b <> HEAD /\ (a = HEAD \/ ent_lt st a b = true).
Lemma lo_trans : forall st a b c, lo st a b -> lo st b c -> lo st a c.
Proof.
  unfold lo, RBModel.ent_lt. intros st a b c [H1 H2] [H3 H4]. split; auto. destruct H2 as [->|H2]; auto. destruct H4 as [->|H4]; [tauto|]. right. eapply name_lt_trans; eauto.
Qed.
Lemma lo_irrefl : forall st a, ~ lo st a a.
Proof. unfold lo, RBModel.ent_lt. intros st a [H1 [->|H2]]; [tauto|]. rewrite name_lt_irrefl in H2. discriminate. Qed.
Lemma ent_lt_keeps : forall st st', keeps st st' -> forall a b, ent_lt st' a b = ent_lt st a b.
Proof. intros st st' K a b. unfold RBModel.ent_lt. destruct (K a) as (-> & _), (K b) as (-> & _). auto. Qed.
Lemma lo_keeps : forall st st' a b, keeps st st' -> lo st a b -> lo st' a b.
Proof. intros st st' a b K. unfold lo. rewrite (ent_lt_keeps _ _ K). auto. Qed.
End Order.

(** ** What is left and right of a hole *)
Fixpoint pre (k : list frame) : list Z :=
  match k with [] => [] | f :: k' => if f_d f then pre k' ++ ids (f_s f) ++ [f_i f] else pre k' end.
Fixpoint post (k : list frame) : list Z :=
  match k with [] => [] | f :: k' => if f_d f then post k' else f_i f :: ids (f_s f) ++ post k' end.
Lemma ids_plug : forall k t, ids (plug k t) = pre k ++ ids t ++ post k.
Proof.
  induction k as [|f k IH]; intros t; cbn; [rewrite app_nil_r; auto|]. rewrite IH. unfold fill, nd.
  destruct (f_d f); cbn; repeat (rewrite <- ?app_assoc; cbn); auto.
Qed.
Lemma In_pre_post : forall k j, In j (cids k) <-> In j (pre k) \/ In j (post k).
Proof. induction k as [|f k IH]; intros j; cbn; [tauto|]. rewrite in_app_iff, IH. destruct (f_d f); cbn; rewrite ?in_app_iff; cbn; intuition. Qed.

Lemma sorted_app : forall (R : Z -> Z -> Prop) a b, StronglySorted R (a ++ b) <->
  StronglySorted R a /\ StronglySorted R b /\ (forall x y, In x a -> In y b -> R x y).
Proof.
  intros R a b. induction a as [|x a IH]; cbn.
  - split; [intros H; repeat split; auto; [constructor|tauto]|tauto].
  - split.
    + intros H. inversion H; subst. apply IH in H2 as (A & B & C). rewrite Forall_app in H3. destruct H3 as [D E]. split; [constructor; auto|]. split; auto.
      intros u v [<-|Hu] Hv; auto. rewrite Forall_forall in E. auto.
    + intros (A & B & C). inversion A; subst. constructor; [apply IH; repeat split; auto|]. apply Forall_app. split; auto. apply Forall_forall. auto.
Qed.
Lemma sorted_ext : forall (R R' : Z -> Z -> Prop) l, (forall a b, In a l -> In b l -> R a b -> R' a b) -> StronglySorted R l -> StronglySorted R' l.
Proof.
  intros R R' l. induction l as [|x l IH]; intros H S; [constructor|]. inversion S; subst. constructor.
  - apply IH; auto. intros a b Ha Hb. apply H; right; auto.
  - rewrite Forall_forall in *. intros y Hy. apply H; [left; auto|right; auto|auto].
Qed.

(** ** Contexts that follow the search for [e] *)
Section Fits.
Variable upper : list Z -> list Z.
Notation ent_lt := (ent_lt upper). Notation lo := (lo upper).

Definition fits (st : store) (e : Z) (k : list frame) : Prop := Forall (fun f => (f_i f = HEAD -> f_d f = true) /\ (f_i f <> HEAD -> f_d f = negb (ent_lt st e (f_i f)))) k.
(** [e] compares with [j] *)
Definition apart (st : store) (e j : Z) : Prop := j = HEAD \/ ent_lt st e j = true \/ ent_lt st j e = true.

Lemma fits_cut : forall k st e t, e <> HEAD -> StronglySorted (lo st) (ids (plug k t)) -> fits st e k -> (forall j, In j (cids k) -> apart st e j) ->
  Forall (fun j => lo st j e) (pre k) /\ Forall (fun j => lo st e j) (post k).
Proof.
  induction k as [|f k IH]; intros st e t He S F A; cbn; [auto|]. inversion F as [|? ? [F1 F2] F3]; subst. cbn in S.
  destruct (IH st e (fill f t)) as [P Q]; auto.
  { intros j Hj. apply A. cbn. right. apply in_or_app. auto. }
  rewrite ids_plug in S. apply sorted_app in S as (_ & S & _). apply sorted_app in S as (S & _ & _).
  unfold fill, nd in S. destruct (f_d f) eqn:D.
  - split; auto. apply Forall_app. split; auto. assert (L : lo st (f_i f) e).
    { split; auto. destruct (A (f_i f) (or_introl eq_refl)) as [X|[X|X]]; auto. destruct (Z.eq_dec (f_i f) HEAD) as [Y|Y]; auto. specialize (F2 Y). rewrite X in F2. discriminate. }
    apply Forall_app. split; [|constructor; [exact L|constructor]]. cbn in S. apply sorted_app in S as (_ & _ & S). apply Forall_forall. intros j Hj.
    eapply lo_trans; [|exact L]. apply S; auto. left. auto.
  - split; auto. assert (L : lo st e (f_i f)).
    { destruct (Z.eq_dec (f_i f) HEAD) as [Y|Y]; [specialize (F1 Y); discriminate|].
      split; auto. right. specialize (F2 Y). destruct (ent_lt st e (f_i f)); auto; discriminate. }
    cbn in S. apply sorted_app in S as (_ & S & _). inversion S; subst.
    constructor; auto. apply Forall_app. split; auto. rewrite Forall_forall in *. intros j Hj. eapply lo_trans; [exact L|]. auto.
Qed.
End Fits.
