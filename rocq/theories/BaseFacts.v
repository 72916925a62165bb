(** Lemmas about the vocabulary of Base.v. *)
From Verif Require Import Base.
From Coq Require Import ZArith List Bool Lia FinFun.
From Coq Require Import ZifyBool ZifyNat ZifyN.
Import ListNotations.
Open Scope Z_scope.
Ltac Zify.zify_post_hook ::= Z.div_mod_to_equations.

Lemma zlen_nonneg : forall A (l : list A), 0 <= zlen l.
Proof. intros; unfold zlen; lia. Qed.

Lemma zlen_nil : forall A, zlen (@nil A) = 0.
Proof. reflexivity. Qed.

Lemma zlen_cons : forall A (x : A) l, zlen (x :: l) = 1 + zlen l.
Proof. intros; unfold zlen; cbn [length]; lia. Qed.

Lemma zlen_app : forall A (a b : list A), zlen (a ++ b) = zlen a + zlen b.
Proof. intros; unfold zlen; rewrite app_length; lia. Qed.

Lemma zlen_map : forall A B (f : A -> B) l, zlen (map f l) = zlen l.
Proof. intros; unfold zlen; rewrite map_length; reflexivity. Qed.

Lemma zlen_rev : forall A (l : list A), zlen (rev l) = zlen l.
Proof. intros; unfold zlen; rewrite rev_length; reflexivity. Qed.

Lemma zlen_repeat : forall A (x : A) n, zlen (repeat x n) = Z.of_nat n.
Proof. intros; unfold zlen; rewrite repeat_length; reflexivity. Qed.

Lemma zlen_zeros : forall n, 0 <= n -> zlen (zeros n) = n.
Proof. intros; unfold zeros; rewrite zlen_repeat; lia. Qed.

Lemma zlen_zeros_max : forall n, zlen (zeros n) = Z.max 0 n.
Proof. intros; unfold zeros; rewrite zlen_repeat; lia. Qed.

Lemma zlen_ztake : forall A n (l : list A), 0 <= n -> zlen (ztake n l) = Z.min n (zlen l).
Proof. intros; unfold ztake, zlen; rewrite firstn_length; lia. Qed.

Lemma zlen_zdrop : forall A n (l : list A), 0 <= n -> zlen (zdrop n l) = Z.max 0 (zlen l - n).
Proof. intros; unfold zdrop, zlen; rewrite skipn_length; lia. Qed.

Lemma zlen_slice : forall A a b (l : list A), 0 <= a <= b -> b <= zlen l -> zlen (slice a b l) = b - a.
Proof. intros; unfold slice; rewrite zlen_ztake, zlen_zdrop; lia. Qed.

Lemma zlen_upd_nth : forall A n (l : list A) v, length (upd_nth n l v) = length l.
Proof. induction n; destruct l; cbn; intros; auto. Qed.

Lemma zlen_zupd : forall A (l : list A) i v, zlen (zupd l i v) = zlen l.
Proof.
  intros; unfold zupd. destruct ((0 <=? i) && (i <? zlen l)); auto.
  unfold zlen; rewrite zlen_upd_nth; auto.
Qed.

Lemma nth_error_upd_same : forall A n (l : list A) v, (n < length l)%nat ->
  nth_error (upd_nth n l v) n = Some v.
Proof. induction n; destruct l; cbn; intros; try lia; auto. apply IHn; lia. Qed.

Lemma nth_error_upd_other : forall A n m (l : list A) v, n <> m ->
  nth_error (upd_nth n l v) m = nth_error l m.
Proof.
  induction n; destruct l, m; cbn; intros; auto; try congruence.
Qed.

Lemma znth_zupd_same : forall A (l : list A) i v, 0 <= i < zlen l ->
  znth (zupd l i v) i = Some v.
Proof.
  intros A l i v H. unfold znth. rewrite zlen_zupd. unfold zupd.
  replace ((0 <=? i) && (i <? zlen l)) with true by lia.
  apply nth_error_upd_same. unfold zlen in H; lia.
Qed.

Lemma znth_zupd_other : forall A (l : list A) i j v, i <> j ->
  znth (zupd l i v) j = znth l j.
Proof.
  intros A l i j v H. unfold znth. rewrite zlen_zupd. unfold zupd.
  destruct ((0 <=? j) && (j <? zlen l)) eqn:E; auto.
  destruct ((0 <=? i) && (i <? zlen l)) eqn:E2; auto.
  apply nth_error_upd_other. lia.
Qed.

Lemma znth_zupd : forall A (l : list A) i j v,
  znth (zupd l i v) j = if (i =? j) && (0 <=? i) && (i <? zlen l) then Some v else znth l j.
Proof.
  intros. destruct ((i =? j) && (0 <=? i) && (i <? zlen l)) eqn:E.
  - replace j with i by lia. apply znth_zupd_same; lia.
  - destruct (Z.eq_dec i j).
    + subst. unfold zupd. replace ((0 <=? j) && (j <? zlen l)) with false by lia. reflexivity.
    + apply znth_zupd_other; auto.
Qed.

Lemma znth_Some : forall A (l : list A) i x, znth l i = Some x -> 0 <= i < zlen l.
Proof.
  intros A l i x H. unfold znth in H.
  destruct ((0 <=? i) && (i <? zlen l)) eqn:E; [lia|discriminate].
Qed.

Lemma znth_None : forall A (l : list A) i, znth l i = None <-> ~ (0 <= i < zlen l).
Proof.
  intros A l i. unfold znth. destruct ((0 <=? i) && (i <? zlen l)) eqn:E.
  - split; [|lia]. intro H. apply nth_error_None in H. unfold zlen in *; lia.
  - split; [lia|auto].
Qed.

Lemma znth_in_range : forall A (l : list A) i, 0 <= i < zlen l -> exists x, znth l i = Some x.
Proof.
  intros. destruct (znth l i) eqn:E; eauto. apply znth_None in E; contradiction.
Qed.

Lemma znth_In : forall A (l : list A) i x, znth l i = Some x -> In x l.
Proof.
  intros A l i x H. unfold znth in H.
  destruct ((0 <=? i) && (i <? zlen l)); [|discriminate]. eapply nth_error_In; eauto.
Qed.

Lemma In_znth : forall A (l : list A) x, In x l -> exists i, 0 <= i < zlen l /\ znth l i = Some x.
Proof.
  intros A l x H. apply In_nth_error in H. destruct H as [n H].
  exists (Z.of_nat n).
  assert (n < length l)%nat by (apply nth_error_Some; congruence).
  unfold znth, zlen. split; [lia|].
  replace ((0 <=? Z.of_nat n) && (Z.of_nat n <? Z.of_nat (length l))) with true by lia.
  rewrite Nat2Z.id; auto.
Qed.

Lemma znth_nat : forall A (l : list A) n, znth l (Z.of_nat n) = nth_error l n.
Proof.
  intros. unfold znth. destruct ((0 <=? Z.of_nat n) && (Z.of_nat n <? zlen l)) eqn:E.
  - rewrite Nat2Z.id; auto.
  - symmetry. apply nth_error_None. unfold zlen in E; lia.
Qed.

Lemma znth_app1 : forall A (a b : list A) i, i < zlen a -> znth (a ++ b) i = znth a i.
Proof.
  intros. unfold znth. rewrite zlen_app. pose proof (zlen_nonneg _ b).
  destruct (Z.leb_spec 0 i); cbn [andb]; auto.
  replace (i <? zlen a + zlen b) with true by lia.
  replace (i <? zlen a) with true by lia.
  apply nth_error_app1. unfold zlen in *; lia.
Qed.

Lemma znth_app2 : forall A (a b : list A) i, zlen a <= i -> znth (a ++ b) i = znth b (i - zlen a).
Proof.
  intros. unfold znth. rewrite zlen_app. pose proof (zlen_nonneg _ a).
  destruct (Z.ltb_spec i (zlen a + zlen b)).
  - replace ((0 <=? i) && true) with true by lia.
    replace ((0 <=? i - zlen a) && (i - zlen a <? zlen b)) with true by lia.
    rewrite nth_error_app2 by (unfold zlen in *; lia).
    f_equal. unfold zlen in *; lia.
  - replace ((0 <=? i) && false) with false by lia.
    replace ((0 <=? i - zlen a) && (i - zlen a <? zlen b)) with false by lia. auto.
Qed.

Lemma nth_error_ext : forall A (a b : list A),
  (forall n, nth_error a n = nth_error b n) -> a = b.
Proof.
  induction a; destruct b; intros H; auto.
  - specialize (H 0%nat); discriminate.
  - specialize (H 0%nat); discriminate.
  - f_equal.
    + specialize (H 0%nat); cbn in H; congruence.
    + apply IHa. intro n. apply (H (S n)).
Qed.

Lemma znth_ext : forall A (a b : list A),
  zlen a = zlen b -> (forall i, 0 <= i < zlen a -> znth a i = znth b i) -> a = b.
Proof.
  intros A a b Hl H. apply nth_error_ext. intro n.
  destruct (Z.ltb_spec (Z.of_nat n) (zlen a)).
  - rewrite <- !znth_nat. apply H. lia.
  - assert (nth_error a n = None) as -> by (apply nth_error_None; unfold zlen in *; lia).
    symmetry. apply nth_error_None; unfold zlen in *; lia.
Qed.

Lemma znth_map : forall A B (f : A -> B) l i, znth (map f l) i = option_map f (znth l i).
Proof.
  intros. unfold znth. rewrite zlen_map.
  destruct ((0 <=? i) && (i <? zlen l)); auto. apply nth_error_map.
Qed.

Lemma nth_error_firstn : forall A n (l : list A) m, nth_error (firstn n l) m =
  if (m <? n)%nat then nth_error l m else None.
Proof.
  induction n; intros l m.
  - cbn. destruct m; auto.
  - destruct l; cbn [firstn].
    + destruct (m <? S n)%nat; destruct m; auto.
    + destruct m; cbn [nth_error]; auto.
      rewrite IHn. reflexivity.
Qed.

Lemma nth_error_skipn : forall A n (l : list A) m, nth_error (skipn n l) m = nth_error l (n + m)%nat.
Proof.
  induction n; intros; cbn; auto. destruct l; auto. destruct m; auto.
Qed.

Lemma znth_ztake : forall A n (l : list A) i, znth (ztake n l) i = if i <? n then znth l i else None.
Proof.
  intros. unfold znth at 1. unfold ztake, zlen. rewrite firstn_length.
  set (m := Z.to_nat (Z.min n (Z.of_nat (length l)))).
  destruct (Z.leb_spec 0 i); cbn [andb].
  - destruct (Z.ltb_spec i (Z.of_nat (Nat.min m (length l)))).
    + replace (i <? n) with true by lia. rewrite nth_error_firstn.
      replace (Z.to_nat i <? m)%nat with true by lia.
      rewrite <- znth_nat. f_equal. lia.
    + destruct (i <? n) eqn:E; auto. symmetry. apply znth_None. unfold zlen. lia.
  - destruct (i <? n); auto. symmetry. apply znth_None. lia.
Qed.

Lemma znth_zdrop : forall A n (l : list A) i, 0 <= n -> 0 <= i -> znth (zdrop n l) i = znth l (n + i).
Proof.
  intros. unfold zdrop.
  replace i with (Z.of_nat (Z.to_nat i)) at 1 by lia.
  rewrite znth_nat, nth_error_skipn, <- znth_nat.
  destruct (Z.leb_spec n (zlen l)).
  - f_equal. lia.
  - transitivity (@None A).
    + apply znth_None. lia.
    + symmetry. apply znth_None. lia.
Qed.

Lemma znth_slice : forall A a b (l : list A) i, 0 <= a -> 0 <= i ->
  znth (slice a b l) i = if i <? b - a then znth l (a + i) else None.
Proof.
  intros. unfold slice. rewrite znth_ztake. destruct (i <? b - a); auto.
  apply znth_zdrop; lia.
Qed.

Lemma ztake_all : forall A n (l : list A), zlen l <= n -> ztake n l = l.
Proof.
  intros. unfold ztake. apply firstn_all2. unfold zlen in *; lia.
Qed.

Lemma ztake_0 : forall A n (l : list A), n <= 0 -> ztake n l = [].
Proof. intros. unfold ztake. replace (Z.to_nat _) with 0%nat by lia. reflexivity. Qed.

Lemma zdrop_0 : forall A n (l : list A), n <= 0 -> zdrop n l = l.
Proof. intros. unfold zdrop. replace (Z.to_nat _) with 0%nat by lia. reflexivity. Qed.

Lemma zdrop_all : forall A n (l : list A), zlen l <= n -> zdrop n l = [].
Proof. intros. unfold zdrop. apply skipn_all2. unfold zlen in *; lia. Qed.

Lemma ztake_zdrop : forall A n (l : list A), ztake n l ++ zdrop n l = l.
Proof. intros. unfold ztake, zdrop. apply firstn_skipn. Qed.

Lemma ztake_app1 : forall A n (a b : list A), n <= zlen a -> ztake n (a ++ b) = ztake n a.
Proof.
  intros. pose proof (zlen_nonneg _ b). pose proof (zlen_nonneg _ a). unfold ztake. rewrite zlen_app.
  replace (Z.min n (zlen a)) with n by lia.
  replace (Z.min n (zlen a + zlen b)) with n by lia.
  rewrite firstn_app. replace (Z.to_nat n - length a)%nat with 0%nat by (unfold zlen in *; lia).
  cbn. apply app_nil_r.
Qed.

Lemma ztake_app2 : forall A n (a b : list A), zlen a <= n -> ztake n (a ++ b) = a ++ ztake (n - zlen a) b.
Proof.
  intros. pose proof (zlen_nonneg _ b). pose proof (zlen_nonneg _ a). unfold ztake. rewrite zlen_app.
  rewrite firstn_app. f_equal.
  - apply firstn_all2. unfold zlen in *; lia.
  - f_equal. unfold zlen in *; lia.
Qed.

Lemma zdrop_app1 : forall A n (a b : list A), n <= zlen a -> zdrop n (a ++ b) = zdrop n a ++ b.
Proof.
  intros. pose proof (zlen_nonneg _ b). pose proof (zlen_nonneg _ a). unfold zdrop. rewrite zlen_app.
  replace (Z.min n (zlen a)) with n by lia.
  replace (Z.min n (zlen a + zlen b)) with n by lia.
  rewrite skipn_app. replace (Z.to_nat n - length a)%nat with 0%nat by (unfold zlen in *; lia).
  reflexivity.
Qed.

Lemma zdrop_app2 : forall A n (a b : list A), zlen a <= n -> zdrop n (a ++ b) = zdrop (n - zlen a) b.
Proof.
  intros. pose proof (zlen_nonneg _ b). pose proof (zlen_nonneg _ a). unfold zdrop. rewrite zlen_app.
  rewrite skipn_app. rewrite skipn_all2 by (unfold zlen in *; lia).
  cbn. f_equal. unfold zlen in *; lia.
Qed.

Lemma ztake_app_exact : forall A (a b : list A), ztake (zlen a) (a ++ b) = a.
Proof. intros. rewrite ztake_app1 by lia. apply ztake_all; lia. Qed.

Lemma zdrop_app_exact : forall A (a b : list A), zdrop (zlen a) (a ++ b) = b.
Proof. intros. rewrite zdrop_app2 by lia. apply zdrop_0; lia. Qed.

Lemma ztake_ztake : forall A n m (l : list A), ztake n (ztake m l) = ztake (Z.min n m) l.
Proof.
  intros. unfold ztake, zlen. rewrite firstn_firstn, firstn_length. f_equal. lia.
Qed.

Lemma skipn_skipn' : forall A a b (l : list A), skipn a (skipn b l) = skipn (b + a) l.
Proof.
  intros A a b. revert a. induction b; intros; cbn; auto. destruct l; auto.
  apply skipn_nil.
Qed.

Lemma zdrop_zdrop : forall A n m (l : list A), 0 <= n -> 0 <= m -> zdrop n (zdrop m l) = zdrop (n + m) l.
Proof.
  intros. unfold zdrop, zlen. rewrite skipn_length, skipn_skipn'.
  destruct (Z.leb_spec (n + m) (Z.of_nat (length l))).
  - f_equal. lia.
  - rewrite !skipn_all2; auto; lia.
Qed.

Lemma zlen_splice : forall A a (d l : list A), 0 <= a -> a + zlen d <= zlen l ->
  zlen (splice a d l) = zlen l.
Proof.
  intros. pose proof (zlen_nonneg _ d). unfold splice.
  rewrite !zlen_app, zlen_ztake, zlen_zdrop; lia.
Qed.

Lemma znth_splice : forall A a (d l : list A) i, 0 <= a -> a + zlen d <= zlen l ->
  znth (splice a d l) i = if (a <=? i) && (i <? a + zlen d) then znth d (i - a) else znth l i.
Proof.
  intros. pose proof (zlen_nonneg _ d). unfold splice.
  destruct (Z.ltb_spec i a).
  - rewrite znth_app1 by (rewrite zlen_ztake; lia).
    rewrite znth_ztake. replace (i <? a) with true by lia.
    replace ((a <=? i) && (i <? a + zlen d)) with false by lia. auto.
  - rewrite znth_app2 by (rewrite zlen_ztake; lia).
    rewrite zlen_ztake by lia. replace (Z.min a (zlen l)) with a by lia.
    destruct (Z.ltb_spec i (a + zlen d)).
    + rewrite znth_app1 by lia. replace (a <=? i) with true by lia. auto.
    + rewrite znth_app2 by lia. replace (a <=? i) with true by lia. cbn [andb].
      rewrite znth_zdrop by lia. f_equal. lia.
Qed.

Lemma znth_repeat : forall A (x : A) n i, znth (repeat x n) i = if (0 <=? i) && (i <? Z.of_nat n) then Some x else None.
Proof.
  intros. unfold znth. rewrite zlen_repeat.
  destruct ((0 <=? i) && (i <? Z.of_nat n)) eqn:E; auto.
  apply nth_error_repeat. lia.
Qed.

Lemma znth_zeros : forall n i, znth (zeros n) i = if (0 <=? i) && (i <? n) then Some 0 else None.
Proof.
  intros. unfold zeros. rewrite znth_repeat.
  destruct ((0 <=? i) && (i <? Z.of_nat (Z.to_nat n))) eqn:E;
  destruct ((0 <=? i) && (i <? n)) eqn:E2; auto; lia.
Qed.

Lemma zeros_app : forall a b, 0 <= a -> 0 <= b -> zeros a ++ zeros b = zeros (a + b).
Proof. intros. unfold zeros. rewrite <- repeat_app. f_equal. lia. Qed.

Lemma zlen_zseq : forall s n, 0 <= n -> zlen (zseq s n) = n.
Proof. intros. unfold zseq. rewrite zlen_map. unfold zlen. rewrite seq_length. lia. Qed.

Lemma In_zseq : forall s n x, In x (zseq s n) <-> s <= x < s + n.
Proof.
  intros. unfold zseq. rewrite in_map_iff. split.
  - intros [k [Hk Hin]]. apply in_seq in Hin. lia.
  - intros H. exists (Z.to_nat (x - s)). split; [lia|]. apply in_seq. lia.
Qed.

Lemma NoDup_zseq : forall s n, NoDup (zseq s n).
Proof.
  intros. unfold zseq. apply FinFun.Injective_map_NoDup; [|apply seq_NoDup].
  intros a b; lia.
Qed.

Lemma zlist_eqb_spec : forall a b, zlist_eqb a b = true <-> a = b.
Proof.
  induction a; destruct b; cbn; split; intros; try discriminate; auto.
  - apply andb_true_iff in H. destruct H. apply IHa in H0. f_equal; [lia|auto].
  - inversion H; subst. rewrite Z.eqb_refl. cbn. apply IHa; auto.
Qed.

Lemma zlist_eqb_refl : forall a, zlist_eqb a a = true.
Proof. intros; apply zlist_eqb_spec; auto. Qed.

Lemma bind_Ok : forall A B (r : result A) (f : A -> result B) b,
  bind r f = Ok b <-> exists a, r = Ok a /\ f a = Ok b.
Proof.
  intros. destruct r; cbn; split; intros.
  - eauto.
  - destruct H as [x [E H]]. congruence.
  - discriminate.
  - destruct H as [x [E H]]. discriminate.
Qed.

Lemma bytes_app : forall a b, bytes (a ++ b) <-> bytes a /\ bytes b.
Proof. intros. unfold bytes. apply Forall_app. Qed.

Lemma bytes_zeros : forall n, bytes (zeros n).
Proof. intros. unfold bytes, zeros. apply Forall_forall. intros x H. apply repeat_spec in H. subst. unfold is_byte; lia. Qed.

Lemma Forall_ztake : forall A (P : A -> Prop) n l, Forall P l -> Forall P (ztake n l).
Proof.
  intros. rewrite <- (ztake_zdrop _ n l) in H. apply Forall_app in H. tauto.
Qed.

Lemma Forall_zdrop : forall A (P : A -> Prop) n l, Forall P l -> Forall P (zdrop n l).
Proof.
  intros. rewrite <- (ztake_zdrop _ n l) in H. apply Forall_app in H. tauto.
Qed.

Lemma Forall_slice : forall A (P : A -> Prop) a b l, Forall P l -> Forall P (slice a b l).
Proof. intros. unfold slice. apply Forall_ztake, Forall_zdrop; auto. Qed.

Lemma is_byteb_spec : forall b, is_byteb b = true <-> is_byte b.
Proof. intros. unfold is_byteb, is_byte. lia. Qed.

Lemma NoDup_app_iff : forall A (a b : list A),
  NoDup (a ++ b) <-> NoDup a /\ NoDup b /\ (forall x, In x a -> ~ In x b).
Proof.
  induction a as [|x a IH]; intros b; cbn [app].
  - split; [intro; repeat split; auto; constructor|tauto].
  - split.
    + intro H. inversion H; subst. apply IH in H3. destruct H3 as [H3 [H4 H5]].
      split; [constructor; auto; intro; apply H2; apply in_or_app; auto|]. split; auto.
      intros y [->|Hy]; auto. intro; apply H2; apply in_or_app; auto.
    + intros [H1 [H2 H3]]. inversion H1; subst. constructor.
      * intro H. apply in_app_or in H. destruct H; auto. apply (H3 x); auto. left; auto.
      * apply IH. repeat split; auto. intros y Hy. apply H3. right; auto.
Qed.

Lemma NoDup_app_remove_r : forall A (a b : list A), NoDup (a ++ b) -> NoDup a.
Proof. intros. apply NoDup_app_iff in H. tauto. Qed.
Lemma NoDup_app_remove_l : forall A (a b : list A), NoDup (a ++ b) -> NoDup b.
Proof. intros. apply NoDup_app_iff in H. tauto. Qed.

Lemma znth_zseq : forall s n i, 0 <= i < n -> znth (zseq s n) i = Some (s + i).
Proof.
  intros s n i H. unfold zseq. rewrite znth_map. unfold znth. unfold zlen; rewrite seq_length.
  replace ((0 <=? i) && (i <? Z.of_nat (Z.to_nat n))) with true by lia.
  rewrite (nth_error_nth' _ 0%nat) by (rewrite seq_length; lia). rewrite seq_nth by lia. cbn. f_equal. lia.
Qed.
