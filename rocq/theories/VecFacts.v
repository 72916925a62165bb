(** Strong reference vectors: the relation to a list and the loops. *)
From Verif Require Import Base BaseFacts TimelineFacts VecModel.
From Coq Require Import ZArith List Bool Lia.
Import ListNotations.
Open Scope Z_scope.

Lemma upd_same : forall A (f : Z -> A) k v, upd f k v k = v.
Proof. intros. unfold upd. rewrite Z.eqb_refl. auto. Qed.
Lemma upd_other : forall A (f : Z -> A) k v j, j <> k -> upd f k v j = f j.
Proof. intros. unfold upd. destruct (j =? k) eqn:E; auto. lia. Qed.

Lemma znth_inj : forall A (l : list A) i j x, NoDup l -> znth l i = Some x -> znth l j = Some x -> i = j.
Proof.
  intros A l i j x Hl Ha Hb. pose proof (znth_Some _ _ _ _ Ha). pose proof (znth_Some _ _ _ _ Hb). unfold znth in Ha, Hb.
  destruct (_ && _) in Ha; [|discriminate]. destruct (_ && _) in Hb; [|discriminate].
  assert (Z.to_nat i = Z.to_nat j); [|lia]. apply (proj1 (NoDup_nth_error l) Hl). { apply nth_error_Some. congruence. } congruence.
Qed.

Definition norm (n i : Z) : Z := if i <? 0 then n + i else i.

Definition coherent (s : vec) (els : list Z) : Prop := forall i o, v_objs s i = Some o -> znth els i = Some o.
Definition readable (s : vec) (els : list Z) : Prop := forall i o, znth els i = Some o ->
  v_objs s i = Some o \/ (v_att s = true /\ exists k, znth (v_refs s) i = Some k /\ v_store s k = Some (Some o)).
Definition settled (s : vec) (k o : Z) : Prop := v_store s k = Some (Some o) /\ v_odir s o = Some (Here k).
Definition pending (s : vec) (i o : Z) : Prop := v_objs s i = Some o /\ v_odir s o = None.

(** more of the cache filled, nothing else changed *)
Definition grown (s s' : vec) (els : list Z) : Prop :=
  exists c, s' = w_objs c s /\ (forall j o, v_objs s j = Some o -> c j = Some o) /\ coherent s' els.

Lemma get_ok : forall s els i, zlen (v_refs s) = zlen els -> coherent s els -> readable s els -> - zlen els <= i ->
  exists s', v_get i s = (s', Ok (znth els (norm (zlen els) i))) /\ grown s s' els /\
    (i < zlen els -> v_objs s' (norm (zlen els) i) = znth els (norm (zlen els) i)).
Proof.
  intros s els i L C Rd Hi. unfold v_get. rewrite L. pose proof (zlen_nonneg _ els).
  destruct (zlen els <=? i) eqn:E.
  - exists s. split. { replace (znth els (norm (zlen els) i)) with (@None Z); auto. symmetry. apply znth_None. unfold norm. destruct (i <? 0) eqn:?; lia. }
    split; [|lia]. exists (v_objs s). split; [destruct s; auto|]. split; auto.
  - assert (N : (if i <? 0 then Z.max 0 (zlen els + i) else i) = norm (zlen els) i) by (unfold norm; destruct (i <? 0) eqn:?; lia). rewrite N.
    assert (B : 0 <= norm (zlen els) i < zlen els) by (unfold norm; destruct (i <? 0) eqn:?; lia). set (j := norm (zlen els) i) in *. clearbody j.
    destruct (znth_in_range _ els j B) as (o & Ho). rewrite Ho. destruct (v_objs s j) as [o'|] eqn:Eo.
    + pose proof (C _ _ Eo). exists s. split; [congruence|]. split; [|intros; congruence]. exists (v_objs s). split; [destruct s; auto|]. split; auto.
    + destruct (Rd _ _ Ho) as [X|(Ha & k & Hk & Hs)]; [congruence|]. rewrite Hk, Ha, Hs. cbn [negb]. eexists. split; [reflexivity|]. split.
      * eexists. split; [reflexivity|]. split.
        { intros x y Hx. rewrite upd_other; auto. intros ->. congruence. }
        { intros x y Hx. cbn in Hx. destruct (Z.eq_dec x j) as [->|]; [rewrite upd_same in Hx; congruence|]. rewrite upd_other in Hx; auto. }
      * intros _. cbn. apply upd_same.
Qed.

Lemma get_at : forall s els i o, zlen (v_refs s) = zlen els -> coherent s els -> readable s els -> znth els i = Some o ->
  exists s', v_get i s = (s', Ok (Some o)) /\ grown s s' els /\ v_objs s' i = Some o.
Proof.
  intros s els i o L C Rd Ho. pose proof (znth_Some _ _ _ _ Ho). destruct (get_ok s els i L C Rd) as (s' & G & H1 & H2); [lia|].
  assert (norm (zlen els) i = i) as E by (unfold norm; destruct (i <? 0) eqn:?; lia). rewrite E, Ho in *. exists s'. split; auto. split; auto. apply H2. lia.
Qed.

Lemma grown_readable : forall s s' els, grown s s' els -> readable s els -> readable s' els.
Proof. intros s s' els (c & -> & H1 & H2) Rd i o Ho. cbn. destruct (Rd _ _ Ho) as [X|X]; auto. Qed.
Lemma grown_trans : forall a b c els, grown a b els -> grown b c els -> grown a c els.
Proof. intros a b c els (f & -> & H1 & H2) (g & -> & H3 & H4). exists g. split; [auto|]. split; auto. Qed.
Lemma grown_refl : forall s els, coherent s els -> grown s s els.
Proof. intros s els C. exists (v_objs s). split; [destruct s; auto|]. auto. Qed.

(** the rule for "for i, obj in enumerate(self)" *)
Lemma v_for_rule : forall els (I : Z -> vec -> Prop) body,
  (forall i s o, I i s -> znth els i = Some o -> exists s1 s2, v_get i s = (s1, Ok (Some o)) /\ body i o s1 = (s2, Ok tt) /\ I (i + 1) s2) ->
  forall n i s, I i s -> 0 <= i -> i + Z.of_nat n = zlen els -> exists s', v_for n i body s = (s', Ok (zdrop i els)) /\ I (zlen els) s'.
Proof.
  intros els I body Step. induction n as [|n IH]; intros i s Hi H0 Hn.
  - exists s. cbn. split; [rewrite zdrop_all by lia; auto|]. replace (zlen els) with i by lia. auto.
  - destruct (znth_in_range _ els i) as (o & Ho); [lia|]. destruct (Step _ _ _ Hi Ho) as (s1 & s2 & G & B & I2).
    cbn [v_for]. unfold mbind at 1. rewrite G. unfold mbind at 1. rewrite B. destruct (IH _ _ I2) as (s' & E & HI); [lia|lia|]. unfold mbind. rewrite E. exists s'. split; auto.
    unfold ret. f_equal. f_equal. destruct (znth_split _ _ _ _ Ho) as (a & b & -> & <-). rewrite zdrop_app_exact. f_equal.
    rewrite zdrop_app2 by lia. replace (zlen a + 1 - zlen a) with (zlen [o]) by (change (zlen [o]) with 1; lia). exact (zdrop_app_exact _ [o] b).
Qed.

Lemma iter_ok : forall s els, zlen (v_refs s) = zlen els -> coherent s els -> readable s els ->
  exists s', v_iter s = (s', Ok els) /\ grown s s' els /\ (forall i o, znth els i = Some o -> v_objs s' i = Some o).
Proof.
  intros s els L C Rd.
  destruct (v_for_rule els (fun i s' => grown s s' els /\ forall j o, j < i -> znth els j = Some o -> v_objs s' j = Some o) (fun _ _ => ret tt)) with (n := length (v_refs s)) (i := 0) (s := s) as (s' & E & G & A).
  - intros i s1 o [G A] Ho. destruct (get_at s1 els i o) as (s2 & E & G2 & O); auto.
    + destruct G as (c & -> & _). auto.
    + destruct G as (c & -> & _ & X). auto.
    + eapply grown_readable; eauto.
    + exists s2, s2. split; auto. split; [reflexivity|]. split; [eapply grown_trans; eauto|]. intros j y Hj Hy. destruct (Z.eq_dec j i) as [->|]; [congruence|]. destruct G2 as (c & -> & X & _). cbn. apply X. apply A; auto. lia.
  - split; [apply grown_refl; auto|]. intros j o Hj Ho. pose proof (znth_Some _ _ _ _ Ho). lia.
  - lia.
  - unfold zlen in *. lia.
  - exists s'. rewrite zdrop_0 in E by lia. split; [exact E|]. split; auto. intros i o Ho. apply A; auto. pose proof (znth_Some _ _ _ _ Ho). lia.
Qed.

(** Loading or attaching: every element is either in its storage or waiting in the cache *)
Record mixed (s : vec) (els : list Z) : Prop := {
  mx_att : v_att s = true;
  mx_len : zlen (v_refs s) = zlen els;
  mx_els : NoDup els;
  mx_refs : NoDup (v_refs s);
  mx_coh : coherent s els;
  mx_ok : forall i k o, znth (v_refs s) i = Some k -> znth els i = Some o -> settled s k o \/ pending s i o }.

Lemma mixed_readable : forall s els, mixed s els -> readable s els.
Proof.
  intros s els M i o Ho. pose proof (znth_Some _ _ _ _ Ho) as B. destruct (znth_in_range _ (v_refs s) i) as (k & Hk); [rewrite (mx_len _ _ M); lia|].
  destruct (mx_ok _ _ M _ _ _ Hk Ho) as [[X _]|[X _]]; auto. right. split; [apply (mx_att _ _ M)|]. eauto.
Qed.

Definition frame (s s' : vec) (els : list Z) : Prop :=
  v_att s' = v_att s /\ v_reg s' = v_reg s /\ v_refs s' = v_refs s /\ v_next s' = v_next s /\ forall o, ~ In o els -> v_odir s' o = v_odir s o.

Lemma attach_ok : forall s els, mixed s els -> exists s', v_attach s = (s', Ok tt) /\ mixed s' els /\ frame s s' els /\
  (forall i k o, znth (v_refs s) i = Some k -> znth els i = Some o -> settled s' k o).
Proof.
  intros s els M. unfold v_attach. rewrite (mx_att _ _ M). cbn [negb]. unfold mbind, v_each.
  destruct (v_for_rule els (fun i s' => mixed s' els /\ frame s s' els /\ forall j k o, j < i -> znth (v_refs s) j = Some k -> znth els j = Some o -> settled s' k o) attach_body) with (n := length (v_refs s)) (i := 0) (s := s) as (s' & E & M' & F' & A').
  - intros i s1 o (M1 & F1 & A1) Ho. destruct (get_at s1 els i o (mx_len _ _ M1) (mx_coh _ _ M1) (mixed_readable _ _ M1) Ho) as (s2 & E & (c & -> & G1 & G2) & O). cbn [v_objs w_objs] in O.
    assert (Hr : v_refs s1 = v_refs s) by (destruct F1 as (_ & _ & X & _); auto).
    assert (Bi : 0 <= i < zlen (v_refs s1)) by (pose proof (znth_Some _ _ _ _ Ho); rewrite (mx_len _ _ M1); auto). destruct (znth_in_range _ _ _ Bi) as (k & Hk).
    exists (w_objs c s1). unfold attach_body. cbn [v_refs w_objs v_store]. rewrite Hk.
    destruct (mx_ok _ _ M1 _ _ _ Hk Ho) as [[S1 S2]|[P1 P2]].
    + rewrite S1. cbn [v_odir w_objs]. rewrite S2. cbn [same_name]. rewrite Z.eqb_refl. eexists. split; [exact E|]. split; [reflexivity|]. split; [|split].
      * constructor; cbn; try apply M1; auto. intros j kj oj Hkj Hoj. destruct (mx_ok _ _ M1 _ _ _ Hkj Hoj) as [S|[P P']]; [left; exact S|right; split; cbn; auto].
      * exact F1.
      * intros j kj oj Hj Hkj Hoj. destruct (Z.eq_dec j i) as [->|].
        { assert (kj = k) by congruence. assert (oj = o) by congruence. subst. split; auto. }
        { apply (A1 j); auto. lia. }
    + cbn [v_odir w_objs]. set (s3 := match v_store s1 k with Some _ => w_objs c s1 | None => w_store (upd (v_store s1) k (Some None)) (w_objs c s1) end).
      assert (O3 : v_odir s3 o = None) by (unfold s3; destruct (v_store s1 k); exact P2).
      assert (Es : same_name (v_odir s3 o) k = false) by (rewrite O3; auto). rewrite Es. unfold obj_attach. rewrite O3. eexists. split; [exact E|]. split; [reflexivity|].
      assert (Q : v_att s3 = v_att s1 /\ v_reg s3 = v_reg s1 /\ v_refs s3 = v_refs s1 /\ v_next s3 = v_next s1 /\ v_objs s3 = c /\ v_odir s3 = v_odir s1 /\ forall x, x <> k -> v_store s3 x = v_store s1 x).
      { unfold s3. destruct (v_store s1 k); cbn; repeat (split; auto). intros x Hx. apply upd_other. auto. }
      destruct Q as (Q1 & Q2 & Q3 & Q4 & Q5 & Q6 & Q7). clearbody s3.
      assert (NK : forall j kj, znth (v_refs s1) j = Some kj -> j <> i -> kj <> k) by (intros j kj Hkj Hne ->; apply Hne; eapply znth_inj; eauto; apply (mx_refs _ _ M1)).
      assert (NO : forall j oj, znth els j = Some oj -> j <> i -> oj <> o) by (intros j oj Hoj Hne ->; apply Hne; eapply znth_inj; eauto; apply (mx_els _ _ M1)).
      split; [|split].
      * constructor; cbn [v_att v_refs v_objs w_store w_odir]; rewrite ?Q1, ?Q3, ?Q5; try apply M1; auto.
        { intros x y Hx. cbn in Hx. rewrite Q5 in Hx. apply G2. auto. }
        intros j kj oj Hkj Hoj. destruct (Z.eq_dec j i) as [->|Hne].
        { assert (kj = k) by congruence. assert (oj = o) by congruence. subst. left. split; cbn; apply upd_same. }
        { destruct (mx_ok _ _ M1 _ _ _ Hkj Hoj) as [[S1 S2]|[T1 T2]].
          - left. split; cbn; rewrite upd_other by eauto; [rewrite Q7 by eauto|rewrite Q6]; auto.
          - right. split; cbn; [rewrite Q5; auto|]. rewrite upd_other by eauto. rewrite Q6. auto. }
      * destruct F1 as (F1 & F2 & F3 & F4 & F5). split; [cbn; congruence|]. split; [cbn; congruence|]. split; [cbn; congruence|]. split; [cbn; congruence|].
        intros x Hx. cbn. rewrite upd_other, Q6; auto. intros ->. apply Hx. eapply znth_In; eauto.
      * intros j kj oj Hj Hkj Hoj. destruct (Z.eq_dec j i) as [->|Hne].
        { assert (kj = k) by congruence. assert (oj = o) by congruence. subst. split; cbn; apply upd_same. }
        { destruct (A1 j kj oj) as [S1 S2]; auto; [lia|]. rewrite <- Hr in Hkj. split; cbn; rewrite upd_other by eauto; [rewrite Q7 by eauto|rewrite Q6]; auto. }
  - split; auto. split. { unfold frame. auto. } intros j k o Hj _ Ho. pose proof (znth_Some _ _ _ _ Ho). lia.
  - lia.
  - pose proof (mx_len _ _ M). unfold zlen in *. lia.
  - rewrite E. exists s'. split; [reflexivity|]. split; auto. split; auto. intros i k o Hk Ho. apply (A' i); auto. pose proof (znth_Some _ _ _ _ Ho). lia.
Qed.

(** ** The relation to a list *)

Record lst := Lst { l_att : bool; l_reg : bool; l_els : list Z; l_busy : Z -> bool }.

Record rel (s : vec) (l : lst) : Prop := {
  r_att : v_att s = l_att l;
  r_reg : v_reg s = l_reg l;
  r_len : zlen (v_refs s) = zlen (l_els l);
  r_els : NoDup (l_els l);
  r_refs : NoDup (v_refs s);
  r_keys : Forall (fun k => 0 <= k < v_next s) (v_refs s);
  r_next : 0 <= v_next s;
  r_coh : coherent s (l_els l);
  r_own : l_els l <> [] -> l_reg l = true;
  r_busy : forall o, In o (l_els l) -> l_busy l o = false;
  r_out : forall o, ~ In o (l_els l) -> match v_odir s o with None => l_busy l o = false | Some (There _) => l_busy l o = true | Some (Here _) => False end;
  r_in : if l_att l then forall i k o, znth (v_refs s) i = Some k -> znth (l_els l) i = Some o -> settled s k o
         else forall i o, znth (l_els l) i = Some o -> pending s i o }.

Lemma rel_readable : forall s l, rel s l -> readable s (l_els l).
Proof.
  intros s l R i o Ho. pose proof (r_in _ _ R) as I. pose proof (znth_Some _ _ _ _ Ho) as B. destruct (l_att l) eqn:E.
  - destruct (znth_in_range _ (v_refs s) i) as (k & Hk); [rewrite (r_len _ _ R); lia|]. right. rewrite (r_att _ _ R). split; auto. exists k. split; auto. apply (I i k o Hk Ho).
  - left. apply (I i o Ho).
Qed.
Lemma rel_mixed : forall s l, rel s l -> l_att l = true -> mixed s (l_els l).
Proof.
  intros s l R A. constructor; try apply R. { rewrite (r_att _ _ R). auto. } intros i k o Hk Ho. left. pose proof (r_in _ _ R) as I. rewrite A in I. eauto.
Qed.
Lemma rel_grown : forall s s' l, rel s l -> grown s s' (l_els l) -> rel s' l.
Proof.
  intros s s' l R (c & -> & H1 & H2). constructor; cbn; try apply R; auto. pose proof (r_in _ _ R) as I. destruct (l_att l).
  - exact I.
  - intros i o Ho. destruct (I i o Ho) as [A B]. split; cbn; auto.
Qed.

(** finishing an operation with self.attach() *)
Lemma finish : forall s els busy reg, 
  v_reg s = reg -> zlen (v_refs s) = zlen els -> NoDup els -> NoDup (v_refs s) -> Forall (fun k => 0 <= k < v_next s) (v_refs s) -> 0 <= v_next s -> coherent s els ->
  (els <> [] -> reg = true) -> (forall o, In o els -> busy o = false) ->
  (forall o, ~ In o els -> match v_odir s o with None => busy o = false | Some (There _) => busy o = true | Some (Here _) => False end) ->
  (if v_att s then forall i k o, znth (v_refs s) i = Some k -> znth els i = Some o -> settled s k o \/ pending s i o
   else forall i o, znth els i = Some o -> pending s i o) ->
  exists s', v_attach s = (s', Ok tt) /\ rel s' (Lst (v_att s) reg els busy).
Proof.
  intros s els busy reg H1 H2 H3 H4 H5 HN H6 H7 HB H8 H9. destruct (v_att s) eqn:E.
  - destruct (attach_ok s els) as (s' & Ha & M & (F1 & F2 & F3 & F4 & F5) & A). { constructor; auto. }
    exists s'. split; auto. constructor; cbn [l_att l_reg l_els l_busy]; try congruence; try apply M.
    + rewrite F3, F4. auto.
    + auto.
    + auto.
    + intros o Ho. rewrite F5 by auto. apply H8. auto.
    + intros i k o Hk Ho. rewrite F3 in Hk. eauto.
  - exists s. unfold v_attach. rewrite E. cbn [negb]. split; auto. constructor; cbn; auto.
Qed.

Lemma clear_ok : forall s els, zlen (v_refs s) = zlen els -> coherent s els -> readable s els ->
  exists s', v_clear s = (s', Ok tt) /\ v_att s' = v_att s /\ v_reg s' = v_reg s /\ v_refs s' = [] /\ v_next s' = 0 /\ (forall i, v_objs s' i = None) /\ v_store s' = v_store s /\
    (forall o, In o els -> v_odir s' o = None) /\ (forall o, ~ In o els -> v_odir s' o = v_odir s o).
Proof.
  intros s els L C Rd. unfold v_clear, v_each, mbind at 1.
  destruct (v_for_rule els (fun i s' => exists s0, grown s s0 els /\ (exists d, s' = w_odir d s0) /\ (forall o, In o (ztake i els) -> v_odir s' o = None) /\ (forall o, ~ In o els -> v_odir s' o = v_odir s o))
    (fun _ o => obj_detach o)) with (n := length (v_refs s)) (i := 0) (s := s) as (s' & E & s0 & (c & -> & G1 & G2) & (d & ->) & A & B).
  - intros i s1 o (s0 & (c & -> & G1 & G2) & (d & ->) & A & B) Ho.
    destruct (get_at (w_odir d (w_objs c s)) els i o) as (s2 & E & (c2 & -> & G3 & G4) & O); auto.
    { intros j y Hy. destruct (Rd j y Hy) as [X|X]; [left; cbn; auto|right; auto]. }
    eexists _, _. split; [exact E|]. split; [reflexivity|]. exists (w_objs c2 s). split; [|split; [|split]].
    + exists c2. split; auto.
    + eexists. cbn. reflexivity.
    + intros y Hy. cbn. destruct (Z.eq_dec y o) as [->|]; [apply upd_same|]. rewrite upd_other by auto. apply A.
      destruct (znth_split _ _ _ _ Ho) as (a & b & -> & <-). rewrite ztake_app_exact. rewrite ztake_app2 in Hy by lia. replace (zlen a + 1 - zlen a) with 1 in Hy by lia. apply in_app_iff in Hy. destruct Hy as [|Hy]; auto.
      unfold ztake in Hy. rewrite zlen_cons in Hy. pose proof (zlen_nonneg _ b). replace (Z.to_nat (Z.min 1 (1 + zlen b))) with 1%nat in Hy by lia. cbn in Hy. destruct Hy as [|[]]. congruence.
    + intros y Hy. cbn. rewrite upd_other. { apply B. auto. } intros ->. apply Hy. eapply znth_In; eauto.
  - exists s. split; [apply grown_refl; auto|]. split; [exists (v_odir s); destruct s; auto|]. split; auto. intros o Ho. rewrite ztake_0 in Ho by lia. destruct Ho.
  - lia.
  - unfold zlen in *. lia.
  - rewrite E. eexists. split; [reflexivity|]. cbn in *. rewrite ztake_all in A by lia. auto 10.
Qed.

Lemma znth_pop : forall (l : list Z) i j, 0 <= i < zlen l -> znth (list_pop l i) j = if j <? i then znth l j else znth l (j + 1).
Proof.
  intros l i j H. destruct (znth_in_range _ l i H) as (x & Hx). destruct (znth_split _ _ _ _ Hx) as (a & b & -> & <-). unfold list_pop. rewrite ztake_app_exact, zdrop_app2 by lia.
  replace (zlen a + 1 - zlen a) with (zlen [x]) by (cbn; lia). change (x :: b) with ([x] ++ b). rewrite zdrop_app_exact. destruct (j <? zlen a) eqn:E.
  - rewrite !znth_app1 by lia. auto.
  - rewrite !znth_app2 by (change (zlen [x]) with 1; lia). change (zlen [x]) with 1. f_equal. lia.
Qed.
Lemma zlen_pop : forall (l : list Z) i, 0 <= i < zlen l -> zlen (list_pop l i) = zlen l - 1.
Proof. intros l i H. unfold list_pop. rewrite zlen_app, zlen_ztake, zlen_zdrop by lia. lia. Qed.
Lemma pop_In : forall (l : list Z) i x y, znth l i = Some x -> NoDup l -> (In y (list_pop l i) <-> In y l /\ y <> x).
Proof.
  intros l i x y Hx N. destruct (znth_split _ _ _ _ Hx) as (a & b & -> & <-). unfold list_pop. rewrite ztake_app_exact, zdrop_app2 by lia.
  replace (zlen a + 1 - zlen a) with (zlen [x]) by (cbn; lia). change (x :: b) with ([x] ++ b) at 1. rewrite zdrop_app_exact. apply NoDup_remove_2 in N. rewrite !in_app_iff in *. cbn. intuition congruence.
Qed.
Lemma pop_NoDup : forall (l : list Z) i, 0 <= i < zlen l -> NoDup l -> NoDup (list_pop l i).
Proof.
  intros l i H N. destruct (znth_in_range _ l i H) as (x & Hx). destruct (znth_split _ _ _ _ Hx) as (a & b & -> & <-). unfold list_pop. rewrite ztake_app_exact, zdrop_app2 by lia.
  replace (zlen a + 1 - zlen a) with (zlen [x]) by (cbn; lia). change (x :: b) with ([x] ++ b) at 1. rewrite zdrop_app_exact. apply NoDup_remove_1 in N. auto.
Qed.

Definition ins (l : list Z) (i x : Z) : list Z := ztake i l ++ [x] ++ zdrop i l.
Lemma znth_ins : forall (l : list Z) i x j, 0 <= i <= zlen l -> znth (ins l i x) j = if j =? i then Some x else if i <? j then znth l (j - 1) else znth l j.
Proof.
  intros l i x j H. unfold ins. assert (Lt : zlen (ztake i l) = i) by (rewrite zlen_ztake; lia). destruct (j =? i) eqn:E1; [|destruct (i <? j) eqn:E2].
  - rewrite znth_app2 by lia. rewrite znth_app1 by (change (zlen [x]) with 1; lia). replace (j - zlen (ztake i l)) with 0 by lia. reflexivity.
  - rewrite znth_app2 by lia. rewrite znth_app2 by (change (zlen [x]) with 1; lia). change (zlen [x]) with 1. rewrite znth_zdrop by lia. f_equal. lia.
  - rewrite znth_app1 by lia. rewrite znth_ztake. replace (j <? i) with true by lia. auto.
Qed.
Lemma ins_perm : forall (l : list Z) i x, Permutation.Permutation (ins l i x) (x :: l).
Proof. intros. unfold ins. cbn [app]. rewrite <- Permutation.Permutation_middle. rewrite ztake_zdrop. auto. Qed.
Lemma zlen_ins : forall (l : list Z) i x, zlen (ins l i x) = zlen l + 1.
Proof. intros. unfold zlen. rewrite (Permutation.Permutation_length (ins_perm l i x)). cbn. lia. Qed.
Lemma ins_NoDup : forall (l : list Z) i x, NoDup l -> ~ In x l -> NoDup (ins l i x).
Proof. intros l i x N H. eapply Permutation.Permutation_NoDup; [apply Permutation.Permutation_sym, ins_perm|]. constructor; auto. Qed.
Lemma ins_In : forall (l : list Z) i x y, In y (ins l i x) <-> y = x \/ In y l.
Proof.
  intros l i x y. split; intros H.
  - eapply Permutation.Permutation_in in H; [|apply ins_perm]. destruct H; auto.
  - eapply Permutation.Permutation_in; [apply Permutation.Permutation_sym, ins_perm|]. destruct H; [left|right]; auto.
Qed.
