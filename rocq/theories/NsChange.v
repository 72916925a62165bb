(** The changes of the namespace: attaching and detaching an entry, new entries, released entries. *)
From Coq Require Import ZArith List Bool Lia Sorting.Permutation Sorting.Sorted.
Import ListNotations.
From Verif Require Import Base BaseFacts LRUModel RBModel RBTree RBOrder RBInsert RBPop RBAny NsModel NsSpec NsPath NsInv NsFind.
Open Scope Z_scope.
Notation length := List.length.

Lemma rep_links : forall st st' t, rep st t -> (forall j, In j (ids t) -> d_red (st' j) = d_red (st j) /\ d_left (st' j) = d_left (st j) /\ d_right (st' j) = d_right (st j)) -> rep st' t.
Proof.
  intros st st' t. induction t as [|c l IHl i r IHr]; cbn; auto. intros (A & B & C & D & E) H. destruct (H i) as (H1 & H2 & H3); [apply in_or_app; right; left; auto|].
  rewrite H1, H2, H3. repeat split; auto; [apply IHl|apply IHr]; auto; intros j Hj; apply H; apply in_or_app; [left|right; right]; auto.
Qed.
Lemma set_child_links : forall st i v j, d_red (set_child st i v j) = d_red (st j) /\ d_left (set_child st i v j) = d_left (st j) /\ d_right (set_child st i v j) = d_right (st j) /\
  d_name (set_child st i v j) = d_name (st j) /\ d_kind (set_child st i v j) = d_kind (st j).
Proof. intros. unfold set_child, supd. destruct (j =? i) eqn:E; [replace j with i by lia|]; cbn; auto. Qed.
Lemma cget_None : forall c i d, cget c i = None -> ~ In (i, d) c.
Proof.
  induction c as [|[k x] c IH]; intros i d H I; [destruct I|]. unfold cget in H. cbn in H. destruct (i =? k) eqn:E; [discriminate|]. destruct I as [I|I]; [injection I as -> _; lia|]. eapply IH; eauto.
Qed.
Lemma cget_cput : forall c i d j, cget (cput c i d) j = if j =? i then Some d else cget c j.
Proof.
  intros. unfold cget, cput. cbn. destruct (j =? i) eqn:E; auto. unfold al_remove. induction c as [|[k x] c IH]; cbn; auto.
  destruct (i =? k) eqn:F; cbn [negb]; [|cbn]; destruct (j =? k) eqn:G; auto; exfalso; lia.
Qed.
(** no listing is lost *)
Definition present (c c' : list (Z * dict)) : Prop := forall i, cget c i <> None -> cget c' i <> None.
Lemma present_cput : forall c i d, present c (cput c i d).
Proof. intros c i d j H. rewrite cget_cput. destruct (j =? i); congruence. Qed.

Definition without (l F : list Z) : list Z := filter (fun x => negb (existsb (Z.eqb x) F)) l.
Lemma In_without : forall l F x, In x (without l F) <-> In x l /\ ~ In x F.
Proof.
  intros. unfold without. rewrite filter_In. assert (existsb (Z.eqb x) F = true <-> In x F). { rewrite existsb_exists. split; [intros (y & H1 & H2); replace x with y by lia; auto|intros H; exists x; split; auto; lia]. }
  destruct (existsb _ _); cbn; intuition.
Qed.

Section Change.
Variable upper : list Z -> list Z.
Variables (per : Z) (cap : nat).
Notation Inv := (Inv upper per).
Notation maxn := (maxn per).

(** the entries' names, kinds and what is not about trees stay *)
Record same_rest (s s' : ns) : Prop := {
  sr_free : n_free s' = n_free s; sr_secs : n_secs s' = n_secs s; sr_log : n_log s' = n_log s;
  sr_names : forall i, i <> HEAD -> d_name (n_st s' i) = d_name (n_st s i) /\ d_kind (n_st s' i) = d_kind (n_st s i) }.

Lemma live_pos : forall X s ch L i, Inv X s ch L -> In i L -> i <> HEAD.
Proof. intros X s ch L i V H. apply (v_range _ _ _ _ _ _ V) in H. unfold HEAD. lia. Qed.
Lemma kid_pos : forall X s ch L i j, Inv X s ch L -> In j (ch i) -> j <> HEAD.
Proof. intros X s ch L i j V H. apply (v_sub _ _ _ _ _ _ V) in H as [H _]. eapply live_pos; eauto. Qed.

(** ** detach *)
Lemma detach_ok : forall X s ch L par j, Inv X s ch L -> In j (ch par) -> ~ X par ->
  exists s' ch', detach upper per s j = Done s' tt /\ Inv X s' ch' L /\ same_rest s s' /\
    (exists A B, ch par = A ++ j :: B /\ ch' par = A ++ B) /\ (forall i, i <> par -> ch' i = ch i) /\
    d_left (n_st s' j) = None /\ d_right (n_st s' j) = None /\ (forall i, i <> HEAD -> i <> par -> d_child (n_st s' i) = d_child (n_st s i)) /\
    n_par s' j = None /\ (forall i, i <> j -> n_par s' i = n_par s i) /\ present (n_cache s) (n_cache s') /\
    (forall i, i <> HEAD -> ~ In i (ch par) -> d_red (n_st s' i) = d_red (n_st s i) /\ d_left (n_st s' i) = d_left (n_st s i) /\ d_right (n_st s' i) = d_right (n_st s i)).
Proof.
  intros X s ch L par j V Hj HX. destruct (inv_dir _ _ _ _ _ _ V _ _ Hj) as [Hp Dp]. destruct (inv_tree _ _ _ _ _ _ V par Hp Dp) as (t & T1 & T2 & T3).
  destruct (v_sub _ _ _ _ _ _ V _ _ Hj) as (Lj & Zj & Pj & Cj).
  unfold detach. rewrite Pj.
  destruct (pop_ok upper (n_st s) par j (maxn s) t T1 T2) as (st' & t' & E & R); [rewrite T3; auto|rewrite T3; apply (inv_few _ _ _ _ _ _ V)|].
  rewrite E. destruct R as [R1 (A & B & R2 & R2') R3 _ R5 R6 [R7 R7'] R8 R9].
  set (ch' := fun i => if i =? par then ids t' else ch i).
  assert (Cp : ch' par = A ++ B) by (unfold ch'; rewrite Z.eqb_refl; auto).
  assert (Co : forall i, i <> par -> ch' i = ch i) by (intros i Hi; unfold ch'; replace (i =? par) with false by lia; auto).
  assert (Cs : forall i x, In x (ch' i) -> In x (ch i) /\ x <> j).
  { intros i x Hx. destruct (Z.eq_dec i par) as [->|N].
    - rewrite Cp in Hx. rewrite <- T3, R2. split; [apply in_app_iff in Hx; apply in_app_iff; cbn; tauto|]. intros ->.
      pose proof (inv_ch_nodup _ _ _ _ _ _ V par) as ND. rewrite <- T3, R2 in ND. apply NoDup_remove_2 in ND. auto.
    - rewrite Co in Hx by auto. split; auto. intros ->. apply N. eapply inv_one_parent; eauto. }
  assert (Nm : forall i, i <> HEAD -> d_name (st' i) = d_name (n_st s i) /\ d_kind (st' i) = d_kind (n_st s i)) by exact R5.
  assert (Lnk : forall i, In i (ids t) \/ i = HEAD \/ (d_red (st' i) = d_red (n_st s i) /\ d_left (st' i) = d_left (n_st s i) /\ d_right (st' i) = d_right (n_st s i))).
  { intros i. destruct (in_dec Z.eq_dec i (ids t)); auto. destruct (Z.eq_dec i HEAD); auto. right; right. destruct (Z.eq_dec i par) as [->|N]; [|rewrite R8; auto].
    rewrite R9. pose proof (set_child_links (n_st s) par (rid t') par). tauto. }
  assert (Gen : forall c, (forall i d, In (i, d) c -> X i \/ (In i L /\ isdir (d_kind (st' i)) = true /\ exists l, Permutation l (ch' i) /\ d = dict_of (fun x => d_name (st' x)) l)) ->
                Inv X (with_par (with_cache (with_st s st') c) j None) ch' L).
  { intros c Hc. constructor; cbn.
    - apply (v_root _ _ _ _ _ _ V).
    - rewrite (proj2 (Nm 0 ltac:(unfold HEAD; lia))). apply (v_k0 _ _ _ _ _ _ V).
    - rewrite (proj1 (Nm 0 ltac:(unfold HEAD; lia))). apply (v_n0 _ _ _ _ _ _ V).
    - intros i Hi N. rewrite (proj2 (Nm i (live_pos _ _ _ _ _ V Hi))). apply (v_kind _ _ _ _ _ _ V); auto.
    - intros i Hi Di. unfold dirat in Di. cbn in Di. rewrite (proj2 (Nm i (live_pos _ _ _ _ _ V Hi))) in Di. destruct (Z.eq_dec i par) as [->|N].
      + exists t'. rewrite Cp. auto.
      + destruct (inv_tree _ _ _ _ _ _ V i Hi Di) as (u & U1 & U2 & U3). exists u. rewrite Co by auto. split; [|split; auto].
        * destruct U1 as [a b c' d e f]. constructor; auto; [rewrite R6; auto; eapply live_pos; eauto|]. eapply rep_links; [exact b|]. intros x Hx. destruct (Lnk x) as [Q|[Q|Q]]; auto; exfalso.
          -- apply N. eapply (inv_one_parent _ _ _ _ _ _ V); [rewrite <- U3; exact Hx|rewrite <- T3; auto].
          -- subst x. auto.
        * eapply sorted_names; [|exact U2]. intros x Hx. apply Nm. intros ->. apply (h_HEAD _ _ _ U1). auto.
    - intros i Hi. destruct (Z.eq_dec i par) as [->|N].
      + exfalso. apply Hi. split; auto. unfold dirat. cbn. rewrite (proj2 (Nm par (live_pos _ _ _ _ _ V Hp))). auto.
      + rewrite Co by auto. apply (v_leaf _ _ _ _ _ _ V). intros [Q1 Q2]. apply Hi. split; auto. unfold dirat in *. cbn. rewrite (proj2 (Nm i (live_pos _ _ _ _ _ V Q1))). auto.
    - intros i x Hx. destruct (Cs i x Hx) as [H1 H2]. destruct (v_sub _ _ _ _ _ _ V _ _ H1) as (Q1 & Q2 & Q3 & Q4). replace (x =? j) with false by lia. repeat split; auto; unfold nmof in *; cbn; rewrite (proj1 (Nm x (live_pos _ _ _ _ _ V Q1))); apply Q4.
    - apply (v_nodup _ _ _ _ _ _ V). - apply (v_range _ _ _ _ _ _ V). - apply (v_free _ _ _ _ _ _ V). - apply (v_frange _ _ _ _ _ _ V).
    - exact Hc.
    - apply (v_per _ _ _ _ _ _ V). - apply (v_secs _ _ _ _ _ _ V). }
  assert (Gc : forall i d, In (i, d) (n_cache s) -> i <> par -> X i \/ (In i L /\ isdir (d_kind (st' i)) = true /\ exists l, Permutation l (ch' i) /\ d = dict_of (fun x => d_name (st' x)) l)).
  { intros i d Hi N. destruct (v_cache _ _ _ _ _ _ V _ _ Hi) as [?|(Q1 & Q2 & l & Q3 & ->)]; auto. right. split; auto. split; [unfold dirat in Q2; rewrite (proj2 (Nm i (live_pos _ _ _ _ _ V Q1))); auto|].
    exists l. rewrite Co by auto. split; auto. apply dict_of_ext. intros x Hx. symmetry. apply Nm. eapply kid_pos; eauto. eapply Permutation_in; eauto. }
  assert (Sr : forall c, same_rest s (with_par (with_cache (with_st s st') c) j None)) by (intros c; constructor; auto).
  cbv zeta. cbn [with_st n_cache]. destruct (cget (n_cache s) par) as [d|] eqn:C.
  - destruct (v_cache _ _ _ _ _ _ V _ _ (cget_In _ _ _ C)) as [?|(_ & _ & l & P & ->)]; [tauto|].
    assert (Dl : distinct (nmof s) l). { intros x y Hx Hy. apply (inv_distinct _ _ _ _ _ _ V par); eapply Permutation_in; eauto. }
    assert (Il : In j l) by (eapply Permutation_in; [symmetry; exact P|auto]).
    rewrite (proj1 (Nm j (live_pos _ _ _ _ _ V Lj))). fold (nmof s j). rewrite dget_dict_in by auto. rewrite ddel_dict by auto.
    eexists; exists ch'. split; [reflexivity|]. split; [apply Gen|].
    + intros i d Hi. apply In_cput in Hi as [[-> ->]|[N Hi]]; [|apply Gc; auto]. right. split; auto. split; [rewrite (proj2 (Nm par (live_pos _ _ _ _ _ V Hp))); auto|].
      exists (filter (fun x => negb (x =? j)) l). split.
      * rewrite Cp. assert (Pf : Permutation (filter (fun x => negb (x =? j)) l) (filter (fun x => negb (x =? j)) (ch par))).
        { clear -P. induction P; cbn; auto; repeat match goal with |- context [negb (?x =? j)] => destruct (x =? j); cbn end; auto; try (etransitivity; eauto). constructor. }
        etransitivity; [exact Pf|]. pose proof (inv_ch_nodup _ _ _ _ _ _ V par) as ND. rewrite <- T3, R2 in *.
        apply NoDup_remove_2 in ND. rewrite filter_app. cbn [filter]. rewrite Z.eqb_refl. cbn [negb].
        assert (Fl : forall m, ~ In j m -> filter (fun x => negb (x =? j)) m = m). { clear. induction m as [|a m IH]; intros H; cbn; auto. replace (a =? j) with false by (symmetry; apply Z.eqb_neq; intros ->; apply H; left; auto). cbn. rewrite IH; auto. intros Q. apply H. right. auto. }
        rewrite !Fl; auto; intros Q; apply ND; apply in_or_app; auto.
      * apply dict_of_ext. intros x Hx. apply filter_In in Hx as [Hx _]. unfold nmof. symmetry. apply Nm. eapply kid_pos; eauto. eapply Permutation_in; eauto.
    + split; [apply Sr|]. split; [exists A, B; rewrite <- T3; auto|]. repeat split; auto.
      * cbn. rewrite Z.eqb_refl. auto.
      * intros i Hi. cbn. replace (i =? j) with false by lia. auto.
      * cbn. apply present_cput.
      * cbn. destruct (Lnk i) as [Q|[Q|Q]]; [rewrite T3 in Q; tauto|tauto|apply Q].
      * cbn. destruct (Lnk i) as [Q|[Q|Q]]; [rewrite T3 in Q; tauto|tauto|apply Q].
      * cbn. destruct (Lnk i) as [Q|[Q|Q]]; [rewrite T3 in Q; tauto|tauto|apply Q].
  - assert (Ei : with_par (with_st s st') j None = with_par (with_cache (with_st s st') (n_cache s)) j None) by reflexivity. rewrite Ei.
    eexists; exists ch'. split; [reflexivity|]. split; [apply Gen|].
    + intros i d Hi. apply Gc; auto. intros ->. eapply cget_None; eauto.
    + split; [apply Sr|]. split; [exists A, B; rewrite <- T3; auto|]. repeat split; auto.
      * cbn. rewrite Z.eqb_refl. auto.
      * intros i Hi. cbn. replace (i =? j) with false by lia. auto.
      * cbn. intros i Hi. auto.
      * cbn. destruct (Lnk i) as [Q|[Q|Q]]; [rewrite T3 in Q; tauto|tauto|apply Q].
      * cbn. destruct (Lnk i) as [Q|[Q|Q]]; [rewrite T3 in Q; tauto|tauto|apply Q].
      * cbn. destruct (Lnk i) as [Q|[Q|Q]]; [rewrite T3 in Q; tauto|tauto|apply Q].
Qed.

(** ** attach *)
Lemma attach_cases : forall s root i, (exists s', attach upper per s root i = Done s' tt) \/ (exists e, attach upper per s root i = Broken e).
Proof. intros. unfold attach. destruct (add_child _ _ _ _ _); [left|right]; eauto. Qed.
Lemma attach_ok : forall X s ch L root i s', Inv X s ch L -> In root L -> dirat s root = true -> ~ X root -> In i L -> i <> 0 -> i <> root ->
  (forall x, ~ In i (ch x)) -> d_left (n_st s i) = None -> d_right (n_st s i) = None -> clean_name (nmof s i) ->
  (forall j, In j (ch root) -> name_eq upper (nmof s i) (nmof s j) = false) -> attach upper per s root i = Done s' tt ->
  exists ch', Inv X s' ch' L /\ same_rest s s' /\ Permutation (ch' root) (i :: ch root) /\ (forall x, x <> root -> ch' x = ch x) /\
    (forall x, x <> HEAD -> x <> root -> d_child (n_st s' x) = d_child (n_st s x)) /\ n_par s' i = Some root /\ (forall x, x <> i -> n_par s' x = n_par s x) /\
    present (n_cache s) (n_cache s').
Proof.
  intros X s ch L root i s' V Hp Dp HX Hi Zi Ni Fl Li Ri Ci Ne E. destruct (inv_tree _ _ _ _ _ _ V root Hp Dp) as (t & T1 & T2 & T3).
  unfold attach in E. cbv zeta in E. cbn [with_par n_st] in E. change (NsModel.maxn per (with_par s i (Some root))) with (maxn s) in E. destruct (add_child upper (n_st s) root i (maxn s)) as [st'|] eqn:Q; [|discriminate].
  destruct (add_child_any upper (n_st s) root i (maxn s) t st' T1 T2) as (t' & R); auto.
  { eapply live_pos; eauto. } { rewrite T3. auto. } { intros j Hj. rewrite T3 in Hj. apply Ne. auto. }
  destruct R as [R1 R2 R3 _ R5 R6 R8 R9].
  set (ch' := fun x => if x =? root then ids t' else ch x).
  assert (Cp : ch' root = ids t') by (unfold ch'; rewrite Z.eqb_refl; auto).
  assert (Co : forall x, x <> root -> ch' x = ch x) by (intros x Hx; unfold ch'; replace (x =? root) with false by lia; auto).
  assert (Pc : Permutation (ch' root) (i :: ch root)) by (rewrite Cp, <- T3; auto).
  assert (Cs : forall x y, In y (ch' x) -> (x = root /\ y = i) \/ (In y (ch x) /\ y <> i)).
  { intros x y Hy. destruct (Z.eq_dec x root) as [->|N].
    - apply (Permutation_in _ Pc) in Hy as [<-|Hy]; auto. right. split; auto. intros ->. eapply Fl; eauto.
    - rewrite Co in Hy by auto. right. split; auto. intros ->. eapply Fl; eauto. }
  assert (Nm : forall x, x <> HEAD -> d_name (st' x) = d_name (n_st s x) /\ d_kind (st' x) = d_kind (n_st s x)) by exact R5.
  assert (Lnk : forall x, In x (ids t) \/ x = i \/ x = HEAD \/ (d_red (st' x) = d_red (n_st s x) /\ d_left (st' x) = d_left (n_st s x) /\ d_right (st' x) = d_right (n_st s x))).
  { intros x. destruct (in_dec Z.eq_dec x (ids t)); auto. destruct (Z.eq_dec x HEAD); auto. destruct (Z.eq_dec x i); auto. right; right; right. destruct (Z.eq_dec x root) as [->|N]; [|rewrite R8; auto].
    rewrite R9. pose proof (set_child_links (n_st s) root (rid t') root). tauto. }
  assert (Gen : forall c, (forall x d, In (x, d) c -> X x \/ (In x L /\ isdir (d_kind (st' x)) = true /\ exists l, Permutation l (ch' x) /\ d = dict_of (fun x => d_name (st' x)) l)) ->
                Inv X (with_cache (with_st (with_par s i (Some root)) st') c) ch' L).
  { intros c Hc. constructor; cbn.
    - apply (v_root _ _ _ _ _ _ V).
    - rewrite (proj2 (Nm 0 ltac:(unfold HEAD; lia))). apply (v_k0 _ _ _ _ _ _ V).
    - rewrite (proj1 (Nm 0 ltac:(unfold HEAD; lia))). apply (v_n0 _ _ _ _ _ _ V).
    - intros x Hx N. rewrite (proj2 (Nm x (live_pos _ _ _ _ _ V Hx))). apply (v_kind _ _ _ _ _ _ V); auto.
    - intros x Hx Di. unfold dirat in Di. cbn in Di. rewrite (proj2 (Nm x (live_pos _ _ _ _ _ V Hx))) in Di. destruct (Z.eq_dec x root) as [->|N].
      + exists t'. rewrite Cp. auto.
      + destruct (inv_tree _ _ _ _ _ _ V x Hx Di) as (u & U1 & U2 & U3). exists u. rewrite Co by auto. split; [|split; auto].
        * destruct U1 as [a b c' d e f]. constructor; auto; [rewrite R6; auto; eapply live_pos; eauto|]. eapply rep_links; [exact b|]. intros y Hy. destruct (Lnk y) as [G|[G|[G|G]]]; auto; exfalso.
          -- apply N. eapply (inv_one_parent _ _ _ _ _ _ V); [rewrite <- U3; exact Hy|rewrite <- T3; auto].
          -- subst y. apply (Fl x). rewrite <- U3. auto.
          -- subst y. auto.
        * eapply sorted_names; [|exact U2]. intros y Hy. apply Nm. intros ->. apply (h_HEAD _ _ _ U1). auto.
    - intros x Hx. destruct (Z.eq_dec x root) as [->|N].
      + exfalso. apply Hx. split; auto. unfold dirat. cbn. rewrite (proj2 (Nm root (live_pos _ _ _ _ _ V Hp))). auto.
      + rewrite Co by auto. apply (v_leaf _ _ _ _ _ _ V). intros [Q1 Q2]. apply Hx. split; auto. unfold dirat in *. cbn. rewrite (proj2 (Nm x (live_pos _ _ _ _ _ V Q1))). auto.
    - intros x y Hy. unfold nmof. cbn. destruct (Cs x y Hy) as [[-> ->]|[H1 H2]].
      + rewrite Z.eqb_refl. repeat split; auto; rewrite (proj1 (Nm i (live_pos _ _ _ _ _ V Hi))); apply Ci.
      + destruct (v_sub _ _ _ _ _ _ V _ _ H1) as (Q1 & Q2 & Q3 & Q4). replace (y =? i) with false by lia. repeat split; auto; unfold nmof in *; cbn; rewrite (proj1 (Nm y (live_pos _ _ _ _ _ V Q1))); apply Q4.
    - apply (v_nodup _ _ _ _ _ _ V). - apply (v_range _ _ _ _ _ _ V). - apply (v_free _ _ _ _ _ _ V). - apply (v_frange _ _ _ _ _ _ V).
    - exact Hc.
    - apply (v_per _ _ _ _ _ _ V). - apply (v_secs _ _ _ _ _ _ V). }
  assert (Gc : forall x d, In (x, d) (n_cache s) -> x <> root -> X x \/ (In x L /\ isdir (d_kind (st' x)) = true /\ exists l, Permutation l (ch' x) /\ d = dict_of (fun x => d_name (st' x)) l)).
  { intros x d Hx N. destruct (v_cache _ _ _ _ _ _ V _ _ Hx) as [?|(Q1 & Q2 & l & Q3 & ->)]; auto. right. split; auto. split; [unfold dirat in Q2; rewrite (proj2 (Nm x (live_pos _ _ _ _ _ V Q1))); auto|].
    exists l. rewrite Co by auto. split; auto. apply dict_of_ext. intros y Hy. symmetry. apply Nm. eapply kid_pos; eauto. eapply Permutation_in; eauto. }
  assert (Sr : forall c, same_rest s (with_cache (with_st (with_par s i (Some root)) st') c)) by (intros c; constructor; auto).
  assert (Fin : forall c, present (n_cache s) c -> (forall x d, In (x, d) c -> X x \/ (In x L /\ isdir (d_kind (st' x)) = true /\ exists l, Permutation l (ch' x) /\ d = dict_of (fun x => d_name (st' x)) l)) ->
      s' = with_cache (with_st (with_par s i (Some root)) st') c ->
      exists ch', Inv X s' ch' L /\ same_rest s s' /\ Permutation (ch' root) (i :: ch root) /\ (forall x, x <> root -> ch' x = ch x) /\
    (forall x, x <> HEAD -> x <> root -> d_child (n_st s' x) = d_child (n_st s x)) /\ n_par s' i = Some root /\ (forall x, x <> i -> n_par s' x = n_par s x) /\
    present (n_cache s) (n_cache s')).
  { intros c Hc1 Hc2 ->. exists ch'. split; [apply Gen; auto|]. split; [apply Sr|]. split; auto. split; auto. split; auto. cbn. rewrite Z.eqb_refl. split; auto. split; auto. intros x Hx. replace (x =? i) with false by lia. auto. }
  cbn [with_st with_par n_cache] in E. destruct (cget (n_cache s) root) as [d|] eqn:C; injection E as <-.
  - destruct (v_cache _ _ _ _ _ _ V _ _ (cget_In _ _ _ C)) as [?|(_ & _ & l & P & ->)]; [tauto|].
    apply (Fin (cput (n_cache s) root (dset (dict_of (nmof s) l) (d_name (st' i)) i))); [apply present_cput| |reflexivity].
    intros x d Hx. apply In_cput in Hx as [[-> ->]|[N Hx]]; [|apply Gc; auto]. right. split; auto. split; [rewrite (proj2 (Nm root (live_pos _ _ _ _ _ V Hp))); auto|].
    exists (l ++ [i]). split.
    + etransitivity; [apply Permutation_app_comm|]. cbn. etransitivity; [apply perm_skip; exact P|]. symmetry. auto.
    + rewrite (proj1 (Nm i (live_pos _ _ _ _ _ V Hi))). fold (nmof s i). rewrite dset_new.
      * apply dict_of_ext. intros y Hy. unfold nmof. symmetry. apply Nm. apply in_app_or in Hy as [Hy|[<-|[]]]; [|eapply live_pos; eauto]. eapply kid_pos; eauto. eapply Permutation_in; eauto.
      * intros j Hj Q'. assert (In j (ch root)) by (eapply Permutation_in; eauto). apply Ne in H. rewrite Q' in H. unfold name_eq in H. rewrite Z.eqb_refl, zlist_eqb_refl in H. discriminate.
  - apply (Fin (n_cache s)); [intros x Hx; auto| |reflexivity]. intros x d Hx. apply Gc; auto. intros ->. eapply cget_None; eauto.
Qed.
(** an insertion into a folder without two red entries in line succeeds *)
Lemma attach_done : forall X s ch L root i t, Inv X s ch L -> In root L -> In i L -> i <> root ->
  (forall x, ~ In i (ch x)) -> d_left (n_st s i) = None -> d_right (n_st s i) = None ->
  (forall j, In j (ch root) -> name_eq upper (nmof s i) (nmof s j) = false) ->
  holds (n_st s) root t -> sorted upper (n_st s) (ids t) -> ids t = ch root -> tred t = false -> nrr t -> exists s', attach upper per s root i = Done s' tt.
Proof.
  intros X s ch L root i t V Hp Hi Ni Fl Li Ri Ne T1 T2 T3 T4 T5. unfold attach. cbn [with_par n_st].
  destruct (add_child_ok upper (n_st s) root i (maxn s) t T1 T4 T5 T2) as (st' & t' & E & _); auto.
  { eapply live_pos; eauto. } { rewrite T3. auto. } { intros j Hj. apply Ne. rewrite <- T3. auto. } { rewrite T3. apply (inv_few _ _ _ _ _ _ V). }
  change (NsModel.maxn per (with_par s i (Some root))) with (maxn s). rewrite E. eauto.
Qed.

(** ** a new entry *)
Lemma new_id_ok : forall X s ch L, Inv X s ch L -> exists s' i, next_free_dir_id per s = (s', i) /\ Inv X s' ch L /\ ~ In i L /\ ~ In i (n_free s') /\ 0 <= i < maxn s' /\
  n_st s' = n_st s /\ n_par s' = n_par s /\ n_cache s' = n_cache s /\ n_log s' = n_log s.
Proof.
  intros X s ch L V. pose proof (v_per _ _ _ _ _ _ V) as Pp. pose proof (v_secs _ _ _ _ _ _ V) as Ps. unfold next_free_dir_id. destruct (n_free s) as [|i f] eqn:F.
  - assert (E : zseq (n_secs s * per) per = n_secs s * per :: zseq (n_secs s * per + 1) (per - 1)).
    { unfold zseq. replace (Z.to_nat per) with (S (Z.to_nat (per - 1))) by lia. cbn [seq map]. f_equal; [lia|]. rewrite <- seq_shift, map_map. apply map_ext. intros. lia. }
    rewrite E. assert (M : maxn s = n_secs s * per) by reflexivity.
    exists (with_free s (zseq (n_secs s * per + 1) (per - 1)) (n_secs s + 1)), (n_secs s * per). split; auto.
    assert (M' : maxn (with_free s (zseq (n_secs s * per + 1) (per - 1)) (n_secs s + 1)) = n_secs s * per + per) by (unfold NsModel.maxn; cbn; lia).
    assert (NL : forall x, n_secs s * per <= x -> ~ In x L) by (intros x Hx H; apply (v_range _ _ _ _ _ _ V) in H; lia).
    assert (Nn : 0 <= n_secs s * per) by (apply Z.mul_nonneg_nonneg; lia).
    split; [|split; [apply NL; lia|split; [cbn; rewrite In_zseq; lia|rewrite M'; repeat split; auto; lia]]].
    destruct V. constructor; auto; cbn.
    + intros i Hi. rewrite M'. apply v_range in Hi. lia.
    + apply NoDup_zseq.
    + intros i Hi. apply In_zseq in Hi. rewrite M'. split; [lia|]. apply NL. lia.
    + lia.
  - exists (with_free s f (n_secs s)), i. split; auto.
    pose proof (v_free _ _ _ _ _ _ V) as N. rewrite F in N. inversion N; subst. destruct (v_frange _ _ _ _ _ _ V i) as [Q1 Q2]; [rewrite F; left; auto|].
    split; [|split; [auto|split; [auto|repeat split; auto; apply Q1]]].
    destruct V. constructor; auto; cbn. intros x Hx. apply v_frange. rewrite F. right. auto.
Qed.
Lemma place_ok : forall s ch L i n k, Inv (fun _ => False) s ch L -> ~ In i L -> ~ In i (n_free s) -> 0 <= i < maxn s -> k = STORAGE \/ k = STREAM ->
  Inv (fun _ => False) (with_st s (supd (n_st s) i (mkd n k true None None None))) ch (i :: L) /\ ch i = [] /\ (forall x, ~ In i (ch x)).
Proof.
  intros s ch L i n k V Hi Hf Hr Hk. set (st' := supd (n_st s) i (mkd n k true None None None)).
  assert (Ei : st' i = mkd n k true None None None) by (apply supd_same).
  assert (Eo : forall x, x <> i -> st' x = n_st s x) by (intros; apply supd_other; auto).
  assert (Lo : forall x, In x L -> st' x = n_st s x) by (intros x Hx; apply Eo; intros ->; auto).
  assert (Fl : forall x, ~ In i (ch x)). { intros x H. apply (v_sub _ _ _ _ _ _ V) in H. tauto. }
  assert (Ci : ch i = []) by (apply (v_leaf _ _ _ _ _ _ V); tauto).
  split; [|auto]. constructor; cbn.
  - right. apply (v_root _ _ _ _ _ _ V).
  - rewrite Lo by apply (v_root _ _ _ _ _ _ V). apply (v_k0 _ _ _ _ _ _ V).
  - rewrite Lo by apply (v_root _ _ _ _ _ _ V). apply (v_n0 _ _ _ _ _ _ V).
  - intros x [<-|Hx] N; [rewrite Ei; auto|]. rewrite Lo by auto. apply (v_kind _ _ _ _ _ _ V); auto.
  - intros x [<-|Hx] Dx.
    + exists Lf. cbn. split; [|split; [constructor|auto]]. constructor; cbn; auto; [rewrite Ei; auto|constructor|unfold HEAD; lia].
    + unfold dirat in Dx. cbn in Dx. rewrite Lo in Dx by auto. destruct (inv_tree _ _ _ _ _ _ V x Hx Dx) as (u & U1 & U2 & U3). exists u. split; [|split; auto].
      * destruct U1. constructor; auto; [rewrite Lo; auto|]. eapply rep_ext; eauto. intros y Hy. apply Eo. intros ->. rewrite U3 in Hy. eapply Fl; eauto.
      * eapply sorted_names; [|exact U2]. intros y Hy. rewrite Eo; auto. intros ->. rewrite U3 in Hy. eapply Fl; eauto.
  - intros x Hx. destruct (Z.eq_dec x i) as [->|N]; auto. apply (v_leaf _ _ _ _ _ _ V). intros [Q1 Q2]. apply Hx. split; [right; auto|]. unfold dirat in *. cbn. rewrite Eo by auto. auto.
  - intros x y Hy. destruct (v_sub _ _ _ _ _ _ V _ _ Hy) as (Q1 & Q2 & Q3 & Q4). repeat split; auto; unfold nmof in *; cbn; rewrite Lo by auto; apply Q4.
  - constructor; auto. apply (v_nodup _ _ _ _ _ _ V).
  - intros x [<-|Hx]; auto. apply (v_range _ _ _ _ _ _ V); auto.
  - apply (v_free _ _ _ _ _ _ V).
  - intros x Hx. destruct (v_frange _ _ _ _ _ _ V x Hx) as [Q1 Q2]. split; auto. intros [<-|Q]; auto.
  - intros x d Hx. destruct (v_cache _ _ _ _ _ _ V _ _ Hx) as [[]|(Q1 & Q2 & l & Q3 & ->)]. right. split; auto. split; [unfold dirat in *; cbn; rewrite Lo; auto|]. exists l. split; auto. apply dict_of_ext.
    intros y Hy. unfold nmof. cbn. rewrite Eo; auto. intros ->. eapply Fl. eapply Permutation_in; eauto.
  - apply (v_per _ _ _ _ _ _ V).
  - apply (v_secs _ _ _ _ _ _ V).
Qed.

(** ** a new name for an entry that is nowhere *)
Lemma rename_ok : forall X s ch L i n, Inv X s ch L -> i <> 0 -> (forall x, ~ In i (ch x)) ->
  let e := n_st s i in Inv X (with_st s (supd (n_st s) i (mkd n (d_kind e) (d_red e) (d_left e) (d_right e) (d_child e)))) ch L.
Proof.
  intros X s ch L i n V Zi Fl e. set (st' := supd (n_st s) i _).
  assert (Ei : st' i = mkd n (d_kind e) (d_red e) (d_left e) (d_right e) (d_child e)) by apply supd_same.
  assert (Eo : forall x, x <> i -> st' x = n_st s x) by (intros; apply supd_other; auto).
  assert (Ek : forall x, d_kind (st' x) = d_kind (n_st s x)) by (intros x; destruct (Z.eq_dec x i) as [->|N]; [rewrite Ei; auto|rewrite Eo; auto]).
  assert (Ec : forall x, d_child (st' x) = d_child (n_st s x)) by (intros x; destruct (Z.eq_dec x i) as [->|N]; [rewrite Ei; auto|rewrite Eo; auto]).
  assert (Nk : forall x y, In y (ch x) -> y <> i) by (intros x y H ->; eapply Fl; eauto).
  destruct V. constructor; unfold dirat, nmof in *; cbn; auto.
  - rewrite Ek. auto. - rewrite Eo; auto. - intros x Hx N. rewrite Ek. auto.
  - intros x Hx Dx. rewrite Ek in Dx. destruct (v_tree x Hx Dx) as (u & U1 & U2 & U3). exists u. split; [|split; auto].
    + destruct U1. constructor; auto; [rewrite Ec; auto|]. eapply rep_ext; eauto. intros y Hy. apply Eo. eapply Nk. rewrite <- U3. eauto.
    + eapply sorted_names; [|exact U2]. intros y Hy. rewrite Eo; auto. eapply Nk. rewrite <- U3. eauto.
  - intros x Hx. apply v_leaf. rewrite Ek in Hx. auto.
  - intros x y Hy. rewrite Eo by eauto. auto.
  - intros x d Hx. destruct (v_cache x d Hx) as [?|(Q1 & Q2 & l & Q3 & ->)]; auto. right. rewrite Ek. split; auto. split; auto. exists l. split; auto. apply dict_of_ext. intros y Hy. rewrite Eo; auto. eapply Nk. eapply Permutation_in; eauto.
Qed.

(** ** released entries *)
Lemma free_entry_facts : forall s i, n_st (free_dir_entry s i) = n_st s /\ n_par (free_dir_entry s i) = n_par s /\ n_free (free_dir_entry s i) = n_free s ++ [i] /\ n_secs (free_dir_entry s i) = n_secs s /\
  n_log (free_dir_entry s i) = n_log s /\ (forall x d, In (x, d) (n_cache (free_dir_entry s i)) -> x <> i /\ In (x, d) (n_cache s)).
Proof.
  intros. unfold free_dir_entry. cbn [with_free n_cache]. destruct (cget (n_cache s) i) eqn:E; cbn; do 5 (split; [reflexivity|]); intros x z H.
  - apply In_cdel in H. tauto.
  - split; auto. intros ->. eapply cget_None; eauto.
Qed.
Lemma rm_items_facts : forall streams dirs s, let s' := rm_items s streams dirs in
  n_st s' = n_st s /\ n_par s' = n_par s /\ n_free s' = n_free s ++ streams ++ dirs /\ n_secs s' = n_secs s /\ n_log s' = n_log s ++ streams /\
  (forall x d, In (x, d) (n_cache s') -> ~ In x (streams ++ dirs) /\ In (x, d) (n_cache s)).
Proof.
  assert (D : forall dirs s, let s' := fold_left free_dir_entry dirs s in
    n_st s' = n_st s /\ n_par s' = n_par s /\ n_free s' = n_free s ++ dirs /\ n_secs s' = n_secs s /\ n_log s' = n_log s /\ (forall x d, In (x, d) (n_cache s') -> ~ In x dirs /\ In (x, d) (n_cache s))).
  { induction dirs as [|i dirs IH]; intros s; cbn [fold_left]; [cbn; rewrite app_nil_r; do 5 (split; [reflexivity|]); intros; split; auto|]. destruct (IH (free_dir_entry s i)) as (A & B & C & D & E & F). destruct (free_entry_facts s i) as (a & b & c & d & e & f).
    cbv zeta. rewrite A, B, C, D, E, a, b, c, d, e. rewrite <- app_assoc. do 5 (split; [reflexivity|]). intros x y H; apply F in H as [H1 H2]; apply f in H2 as [H2 H3]. split; auto. intros [<-|Q]; auto. }
  assert (S : forall streams s, let s' := fold_left (fun s i => free_dir_entry (free_chain s i) i) streams s in
    n_st s' = n_st s /\ n_par s' = n_par s /\ n_free s' = n_free s ++ streams /\ n_secs s' = n_secs s /\ n_log s' = n_log s ++ streams /\ (forall x d, In (x, d) (n_cache s') -> ~ In x streams /\ In (x, d) (n_cache s))).
  { induction streams as [|i l IH]; intros s; cbn [fold_left]; [cbn; rewrite !app_nil_r; do 5 (split; [reflexivity|]); intros; split; auto|]. destruct (IH (free_dir_entry (free_chain s i) i)) as (A & B & C & D' & E & F). destruct (free_entry_facts (free_chain s i) i) as (a & b & c & d & e & f).
    cbv zeta. rewrite A, B, C, D', E, a, b, c, d, e. cbn. rewrite <- !app_assoc. do 5 (split; [reflexivity|]). intros x y H; apply F in H as [H1 H2]; apply f in H2 as [H2 H3]. split; auto. intros [<-|Q]; auto. }
  intros streams dirs s. unfold rm_items. destruct (S streams s) as (A & B & C & D' & E & F). destruct (D dirs (fold_left (fun s i => free_dir_entry (free_chain s i) i) streams s)) as (a & b & c & d & e & f).
  cbv zeta. rewrite a, b, c, d, e, A, B, C, D', E, app_assoc. do 5 (split; [reflexivity|]). intros x y H; apply f in H as [H1 H2]; apply F in H2 as [H2 H3]. split; auto. rewrite in_app_iff. tauto.
Qed.
(** the childless items of a folder are released and the folder is emptied *)
Lemma drop_ok : forall X s ch L root streams dirs, Inv X s ch L -> In root L -> Permutation (streams ++ dirs) (ch root) -> (forall j, In j (ch root) -> ch j = []) ->
  let s3 := rm_items s streams dirs in let s' := with_st s3 (set_child (n_st s3) root None) in
  Inv (fun x => x = root \/ (X x /\ ~ In x (ch root))) s' (fun x => if x =? root then [] else ch x) (without L (ch root)) /\
  n_free s' = n_free s ++ streams ++ dirs /\ n_log s' = n_log s ++ streams /\ n_secs s' = n_secs s /\ n_par s' = n_par s /\ n_st s' = set_child (n_st s) root None.
Proof.
  intros X s ch L root streams dirs V Hr P Hk s3 s'. destruct (rm_items_facts streams dirs s) as (A & B & C & D & E & F). fold s3 in A, B, C, D, E, F.
  unfold s'. cbn. rewrite A, B, C, D, E. split; [|auto].
  assert (In_items : forall x, In x (streams ++ dirs) <-> In x (ch root)) by (intros x; split; apply Permutation_in; auto; symmetry; auto).
  assert (Rr : ~ In root (ch root)). { intros H. destruct (inv_dir _ _ _ _ _ _ V _ _ H) as [Q1 Q2]. destruct (inv_tree _ _ _ _ _ _ V root Q1 Q2) as (t & T1 & T2 & T3). apply (h_self _ _ _ T1). rewrite T3. auto. }
  set (st' := set_child (n_st s) root None).
  assert (Lk : forall j, d_red (st' j) = d_red (n_st s j) /\ d_left (st' j) = d_left (n_st s j) /\ d_right (st' j) = d_right (n_st s j) /\ d_name (st' j) = d_name (n_st s j) /\ d_kind (st' j) = d_kind (n_st s j)) by (intros; apply set_child_links).
  assert (Nm : forall j, d_name (st' j) = d_name (n_st s j)) by (intros j; apply (Lk j)). assert (Kn : forall j, d_kind (st' j) = d_kind (n_st s j)) by (intros j; apply (Lk j)).
  constructor; unfold dirat, nmof; cbn.
  - apply In_without. split; [apply (v_root _ _ _ _ _ _ V)|apply (inv_noroot _ _ _ _ _ _ V)].
  - rewrite ?A. fold st'. rewrite Kn. apply (v_k0 _ _ _ _ _ _ V). - rewrite ?A. fold st'. rewrite Nm. apply (v_n0 _ _ _ _ _ _ V).
  - rewrite ?A. fold st'. intros i Hi N. apply In_without in Hi as [Hi _]. rewrite Kn. apply (v_kind _ _ _ _ _ _ V); auto.
  - rewrite ?A. fold st'. intros i Hi Di. rewrite Kn in Di. apply In_without in Hi as [Hi Hn]. destruct (i =? root) eqn:Ei.
    + exists Lf. cbn. split; [|split; [constructor|auto]]. replace i with root by lia. constructor; cbn; auto; [unfold st', set_child; rewrite supd_same; auto|constructor|eapply live_pos; eauto].
    + destruct (inv_tree _ _ _ _ _ _ V i Hi Di) as (u & U1 & U2 & U3). exists u. split; [|split; auto].
      * destruct U1. constructor; auto; [unfold st'; rewrite set_child_other; auto; lia|]. eapply rep_links; eauto. intros j _. destruct (Lk j) as (q1 & q2 & q3 & _); auto.
      * eapply sorted_names; [|exact U2]. auto.
  - rewrite ?A. fold st'. intros i Hi. destruct (i =? root) eqn:Ei; auto. destruct (in_dec Z.eq_dec i (ch root)) as [Q|Q]; auto. apply (v_leaf _ _ _ _ _ _ V). intros [Q1 Q2]. apply Hi. rewrite In_without, Kn. auto.
  - rewrite ?A, ?B. fold st'. intros i j Hj. rewrite Nm. destruct (i =? root) eqn:Ei; [destruct Hj|]. destruct (v_sub _ _ _ _ _ _ V _ _ Hj) as (Q1 & Q2 & Q3 & Q4). repeat split; auto; try apply Q4.
    apply In_without. split; auto. intros Q. assert (i = root) by (eapply (inv_one_parent _ _ _ _ _ _ V); eauto). lia.
  - apply NoDup_filter. apply (v_nodup _ _ _ _ _ _ V).
  - unfold NsModel.maxn. cbn. rewrite ?D. intros i Hi. apply In_without in Hi as [Hi _]. apply (v_range _ _ _ _ _ _ V). auto.
  - rewrite ?C. apply NoDup_app_iff. split; [apply (v_free _ _ _ _ _ _ V)|]. split; [eapply Permutation_NoDup; [symmetry; exact P|apply (inv_ch_nodup _ _ _ _ _ _ V)]|].
    intros x Hx Hy. apply In_items in Hy. apply (v_sub _ _ _ _ _ _ V) in Hy as [Hy _]. apply (v_frange _ _ _ _ _ _ V) in Hx. tauto.
  - unfold NsModel.maxn. cbn. rewrite ?C, ?D. intros i Hi. rewrite In_without. apply in_app_or in Hi as [Hi|Hi].
    + apply (v_frange _ _ _ _ _ _ V) in Hi as [Q1 Q2]. split; auto. tauto.
    + apply In_items in Hi. split; [|tauto]. apply (v_sub _ _ _ _ _ _ V) in Hi as [Hi _]. apply (v_range _ _ _ _ _ _ V). auto.
  - rewrite ?A. fold st'. intros i d Hi. apply F in Hi as [H1 H2]. rewrite In_items in H1. destruct (v_cache _ _ _ _ _ _ V _ _ H2) as [?|(Q1 & Q2 & l & Q3 & ->)]; [left; right; auto|].
    destruct (Z.eq_dec i root) as [->|N]; [left; left; auto|]. right. rewrite In_without, Kn. split; auto. split; auto. exists l. replace (i =? root) with false by lia. split; auto. apply dict_of_ext. intros y Hy. symmetry. apply Nm.
  - apply (v_per _ _ _ _ _ _ V). - rewrite ?D. apply (v_secs _ _ _ _ _ _ V).
Qed.
(** one childless entry that is nowhere is released *)
Lemma release_ok : forall X s ch L i, Inv X s ch L -> i <> 0 -> In i L -> ch i = [] -> (forall x, ~ In i (ch x)) ->
  Inv (fun x => X x /\ x <> i) (free_dir_entry s i) ch (without L [i]).
Proof.
  intros X s ch L i V Zi Hi Ci Fl. destruct (free_entry_facts s i) as (A & B & C & D & E & F).
  constructor; unfold dirat, nmof; rewrite ?A, ?B, ?C, ?D; try exact (v_k0 _ _ _ _ _ _ V); try exact (v_n0 _ _ _ _ _ _ V); try exact (v_per _ _ _ _ _ _ V); try exact (v_secs _ _ _ _ _ _ V).
  - apply In_without. split; [apply (v_root _ _ _ _ _ _ V)|]. intros [Q|[]]. auto.
  - intros x Hx. apply In_without in Hx as [Hx _]. apply (v_kind _ _ _ _ _ _ V); auto.
  - intros x Hx. apply In_without in Hx as [Hx _]. apply (v_tree _ _ _ _ _ _ V); auto.
  - intros x Hx. destruct (Z.eq_dec x i) as [->|N]; auto. apply (v_leaf _ _ _ _ _ _ V). intros [Q1 Q2]. apply Hx. rewrite In_without. split; auto. split; auto. intros [Q|[]]; auto.
  - intros x y Hy. destruct (v_sub _ _ _ _ _ _ V _ _ Hy) as (Q1 & Q2 & Q3 & Q4). repeat split; auto; try apply Q4. apply In_without. split; auto. intros [<-|[]]. eapply Fl; eauto.
  - apply NoDup_filter. apply V.
  - intros x Hx. unfold NsModel.maxn. rewrite D. apply In_without in Hx as [Hx _]. apply (v_range _ _ _ _ _ _ V); auto.
  - apply NoDup_app_iff. split; [apply V|]. split; [constructor; [auto|constructor]|]. intros x Hx [<-|[]]. apply (v_frange _ _ _ _ _ _ V) in Hx. tauto.
  - intros x Hx. unfold NsModel.maxn. rewrite D, In_without. apply in_app_or in Hx as [Hx|[<-|[]]].
    + apply (v_frange _ _ _ _ _ _ V) in Hx as [Q1 Q2]. split; auto. tauto.
    + split; [apply (v_range _ _ _ _ _ _ V); auto|]. cbn. tauto.
  - intros x d Hx. apply F in Hx as [H1 H2]. destruct (v_cache _ _ _ _ _ _ V _ _ H2) as [?|(Q1 & Q2 & Q3)]; [left; auto|right]. rewrite In_without. split; [split; auto; intros [Q|[]]; auto|]. split; auto.
Qed.
Lemma log_ok : forall X s ch L i, Inv X s ch L -> Inv X (free_chain s i) ch L.
Proof. intros X s ch L i []. constructor; auto. Qed.
Lemma inv_weaken : forall (X Y : Z -> Prop) s ch L, Inv X s ch L -> (forall x, X x -> Y x) -> Inv Y s ch L.
Proof. intros X Y s ch L V H. destruct V. constructor; auto. intros i d Hi. destruct (v_cache i d Hi); auto. Qed.
End Change.
